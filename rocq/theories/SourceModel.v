(** vodanalyzer/mpdprocessor.py: the VoD manifest as the analyzer reads it, and
    the part of vodanalyzer/dashanalyzer.py that finds the files named by it.
    cc_inserter/mpdprocessor.py is the same text in the parts modelled here. *)
From Verif Require Import Base BytesModel StrModel ConfigModel TimeModel Mp4Model InitModel MpdModel VodModel.
Local Open Scope string_scope.
Open Scope Z_scope.

(** ** Files and paths *)
(** The directories and the files in them.  A path is looked up as it is written
    (no links, no dot-dot); subdirectories are not listed among the files. *)
Definition filesystem := string -> option (list (string * bytes)).
(** [os.path.join(base, p)] (dashanalyzer.py 106, 112) *)
Definition path_join (base p : string) : string :=
  if starts_with "/" p then p
  else if String.eqb base "" || String.eqb (drop (String.length base - 1) base) "/" then base ++ p
  else base ++ "/" ++ p.
(** the last slash of a path: what is before it, and what is after it *)
Fixpoint rsplit_slash (p : string) : option (string * string) :=
  match p with
  | EmptyString => None
  | String a r =>
      match rsplit_slash r with
      | Some (h, t) => Some (String a h, t)
      | None => if Ascii.eqb a "/" then Some ("", r) else None
      end
  end.
(** [s.rstrip("/")] *)
Fixpoint rstrip_slash (s : string) : string :=
  match s with
  | EmptyString => EmptyString
  | String a r => let r' := rstrip_slash r in if Ascii.eqb a "/" && String.eqb r' "" then "" else String a r'
  end.
(** [os.path.split(p)]: the slashes at the end of the head are taken away unless
    the head is nothing else (dashanalyzer.py 73, 130). *)
Definition path_split (p : string) : string * string :=
  match rsplit_slash p with
  | None => ("", p)
  | Some (h, t) =>
      let h := h ++ "/" in
      (if String.eqb (rstrip_slash h) "" then h else rstrip_slash h, t)
  end.
(** [open(path)], [os.path.exists(path)] (dashanalyzer.py 194) *)
Definition read_file (fs : filesystem) (path : string) : option bytes :=
  let '(dir, name) := path_split path in
  match fs dir with None => None | Some l => assoc name l end.

(** ** vodanalyzer/mpdprocessor.py: reading the manifest *)
(** self.attribs of an element: a key may be there with the value None. *)
Definition attribs := list (string * option string).
(** [d[key] = value] *)
Fixpoint dict_set (key : string) (value : option string) (d : attribs) : attribs :=
  match d with
  | [] => [(key, value)]
  | (k, v) :: r => if String.eqb k key then (k, value) :: r else (k, v) :: dict_set key value r
  end.
(** mpdprocessor.py 76-83 [check_and_add_attributes] *)
Fixpoint add_attributes (x : xml) (keys : list string) (d : attribs) : attribs :=
  match keys with
  | [] => d
  | key :: rest =>
      add_attributes x rest
        (match get key x with
         | Some v => dict_set key (Some v) d
         | None => match assoc key d with Some _ => d | None => dict_set key None d end
         end)
  end.
(** [self.attribs[key]] *)
Definition item (key : string) (d : attribs) : result (option string) :=
  match assoc key d with Some v => Ok v | None => Err "KeyError" end.
(** [int(value)] of an attribute value that may be None *)
Definition int_of (v : option string) : result Z :=
  match v with Some s => py_int s | None => Err "TypeError" end.
(** An AdaptationSet after its parse method: its attributes with those of its
    SegmentTemplates, and the attributes of its Representations. *)
Record aset := mk_aset { as_attribs : attribs; as_reps : list attribs }.
(** mpdprocessor.py 178-188 and 214-216, the loop of [AdaptationSet.parse].  The namespace in
    a tag is ignored by the code (lines 64-74) and left out here. *)
Fixpoint parse_children (l : list xml) (a : aset) : aset :=
  match l with
  | [] => a
  | c :: rest =>
      parse_children rest
        (if is_tag "SegmentTemplate" c then
           mk_aset (add_attributes c ["initialization"; "startNumber"; "media"; "duration"; "timescale"] (as_attribs a)) (as_reps a)
         else if is_tag "Representation" c then
           mk_aset (as_attribs a) (as_reps a ++ [add_attributes c ["id"; "bandwidth"] []])%list
         else a)
  end.
(** mpdprocessor.py 178-188 [AdaptationSet.parse] *)
Definition parse_set (x : xml) : aset :=
  parse_children (x_kids x) (mk_aset (add_attributes x ["contentType"; "mimeType"] []) []).
(** mpdprocessor.py 250-265 [MpdProcessor.parse]: all adaptation sets of all Periods *)
Definition parse_source (root : xml) : result (list aset) :=
  if is_tag "MPD" root then
    let* _ := match get "mediaPresentationDuration" root with
              | Some d => iso_duration_to_seconds d
              | None => Ok 0
              end in
    Ok (flat_map (fun p => if is_tag "Period" p then
          map parse_set (filter (is_tag "AdaptationSet") (x_kids p)) else []) (x_kids root))
  else Err "AssertionError".
(** mpdprocessor.py 163-166 [start_number] *)
Definition source_start (a : aset) : result Z := let* v := item "startNumber" (as_attribs a) in int_of v.
(** mpdprocessor.py 168-171 [timescale]: None and the empty string are false *)
Definition source_timescale (a : aset) : result Z :=
  let* v := item "timescale" (as_attribs a) in
  match v with None => Ok 1 | Some s => if String.eqb s "" then Ok 1 else py_int s end.
(** The integer of mpdprocessor.py 176; the division is in [set_duration]. *)
Definition source_ticks (a : aset) : result Z := let* v := item "duration" (as_attribs a) in int_of v.
(** [s.replace(old, value)] with a value that may be None *)
Definition replace_value (old : string) (v : option string) (s : string) : result string :=
  match v with Some new => Ok (replace_all old new s) | None => Err "TypeError" end.
(** mpdprocessor.py 220-223, 228-231: a pattern of the set with id and bandwidth of the
    representation put in *)
Definition fill_pattern (key : string) (a : aset) (rep : attribs) : result string :=
  let* pattern := item key (as_attribs a) in
  let* rep_id := item "id" rep in
  let* bandwidth := item "bandwidth" rep in
  match pattern with
  | None => Err "AttributeError"
  | Some p =>
      let* p := replace_value "$RepresentationID$" rep_id p in
      replace_value "$bandwidth$" bandwidth p
  end.
(** mpdprocessor.py 218-224 [get_initialization_path] *)
Definition init_path (a : aset) (rep : attribs) : result string := fill_pattern "initialization" a rep.
(** mpdprocessor.py 226-233 [get_media_path] with its default argument *)
Definition media_path (a : aset) (rep : attribs) : result string :=
  let* p := fill_pattern "media" a rep in Ok (replace_all "$Number$" "%d" p).

(** ** dashanalyzer.py 127-146: the numbers of the files in a directory *)
(** A character that is a digit. *)
Definition is_digit (a : ascii) : bool := let n := Z.of_nat (nat_of_ascii a) in (48 <=? n) && (n <=? 57).
(** How many digits a string begins with. *)
Fixpoint digits_in (s : string) : nat :=
  match s with String a r => if is_digit a then S (digits_in r) else O | EmptyString => O end.
(** The group of one or more digits before [post]: the longest that leads to a match *)
Fixpoint match_digits (j : nat) (post s : string) : option string :=
  match j with
  | O => None
  | S k => if starts_with post (drop j s) then Some (take j s) else match_digits k post s
  end.
(** [re.match] of a file name with the text [pre], a group of digits, the text
    [post]; what follows in the name does not matter (dashanalyzer.py 131-138). *)
Definition match_name (pre post name : string) : option string :=
  if starts_with pre name then
    let s := drop (String.length pre) name in match_digits (digits_in s) post s
  else None.
(** Characters with a meaning in a pattern, other than the dot that line 131
    escapes. *)
Definition is_special (a : ascii) : bool :=
  existsb (Ascii.eqb a) ["\"; "^"; "*"; "+"; "?"; "{"; "}"; "["; "]"; "|"; "("; ")"]%char.
(** Does a character with the property occur? *)
Fixpoint has_char (f : ascii -> bool) (s : string) : bool :=
  match s with String a r => f a || has_char f r | EmptyString => false end.
(** The text before and after the first occurrence of %d. *)
Definition split_percent (s : string) : option (string * string) :=
  match find "%d" s with None => None | Some i => Some (take i s, drop (i + 2) s) end.
(** int of the groups of all matching names, dashanalyzer.py 136-139 *)
Fixpoint match_files (pre post : string) (l : list (string * bytes)) : result (list Z) :=
  match l with
  | [] => Ok []
  | (name, _) :: rest =>
      match match_name pre post name with
      | None => match_files pre post rest
      | Some ds =>
          let* n := py_int ds in
          let* ns := match_files pre post rest in
          Ok (n :: ns)
      end
  end.
(** dashanalyzer.py 128-139: the numbers found in the directory of the media path.
    Without a group in the pattern the tuple of groups is empty, and with no
    match the list of numbers; line 138 or 144 then raises IndexError.  A dollar sign
    that is left in the name before the end matches nothing.  Names with other
    pattern characters are not modelled (an error here). *)
Definition find_numbers (fs : filesystem) (path : string) : result (list Z) :=
  let '(dir, name) := path_split path in
  match fs dir with
  | None => Err "FileNotFoundError"
  | Some l =>
      if has_char is_special name then Err "not modelled"
      else if has_char (fun a => Ascii.eqb a "$") name then Err "IndexError"
      else
        match split_percent name with
        | None => Err "IndexError"
        | Some (pre, post) => match_files pre post l
        end
  end.
(** [path % nr] (dashanalyzer.py 193), for a path with one %d and no other
    percent sign; any other path is an error here (Python accepts %% and some
    other conversions). *)
Definition percent (path : string) (nr : Z) : result string :=
  match split_percent path with
  | None => Err "TypeError"
  | Some (pre, post) =>
      if has_char (fun a => Ascii.eqb a "%") (pre ++ post) then Err "TypeError" else Ok (pre ++ print_Z nr ++ post)
  end.
(** The files that dashanalyzer.py 193-194 can find: only a number found in the directory
    can have one. *)
Fixpoint existing (fs : filesystem) (path : string) (numbers : list Z) : result (list (Z * bytes)) :=
  match numbers with
  | [] => Ok []
  | n :: rest =>
      let* p := percent path n in
      let* l := existing fs path rest in
      Ok (match read_file fs p with Some b => (n, b) :: l | None => l end)
  end.

(** ** dashanalyzer.py 89-125: initMedia from manifest and files *)
(** dashanalyzer.py 101-117 for one representation, with its track_timescale *)
Definition source_rep (fs : filesystem) (base : string) (a : aset) (rep : attribs) : result (rdata * Z) :=
  let* ip := init_path a rep in
  let* init := match read_file fs (path_join base ip) with Some b => Ok b | None => Err "FileNotFoundError" end in
  let* (_, st) := init_filter init in
  let* _ := match is_track_id st with Some _ => Ok tt | None => Err "TypeError" end in
  let* mp := media_path a rep in
  let* d := match is_trex st with Some (_, d, _, _) => Ok d | None => Err "AttributeError" end in
  let path := path_join base mp in
  let* numbers := find_numbers fs path in
  let* (first, lst) := segment_range numbers in
  let* files := existing fs path numbers in
  let* id := item "id" rep in
  match id with
  | None => Err "TypeError"
  | Some id => Ok (mk_rdata id d first lst files, is_timescale st)
  end.
(** dashanalyzer.py 101-121 *)
Fixpoint source_reps (fs : filesystem) (base : string) (a : aset) (l : list attribs) (timescale : option Z)
    : result (list rdata * option Z) :=
  match l with
  | [] => Ok ([], timescale)
  | r :: rest =>
      let* (rd, ts) := source_rep fs base a r in
      let* t := match timescale with
                | None => Ok ts
                | Some t => if ts =? t then Ok t else Err "DashAnalyzerError"
                end in
      let* (rds, out) := source_reps fs base a rest (Some t) in
      Ok (rd :: rds, out)
  end.
(** dashanalyzer.py 89-125 [initMedia].  The numbers in the attributes are taken here;
    the code takes them in checkAndUpdateMediaData, so that with several errors
    another one may be raised first. *)
Fixpoint source_media (fs : filesystem) (base : string) (l : list aset) (seen : list string) : result (list sdata) :=
  match l with
  | [] => Ok []
  | a :: rest =>
      let* ct := item "contentType" (as_attribs a) in
      match ct with
      | None => Err "SystemExit"
      | Some ct =>
          if str_in ct seen then Err "DashAnalyzerError"
          else
            let* (rds, ts) := source_reps fs base a (as_reps a) None in
            let* sds := source_media fs base rest (ct :: seen) in
            let* ticks := source_ticks a in
            let* scale := source_timescale a in
            let* start := source_start a in
            Ok (mk_sdata (mk_vset ct ticks scale start []) rds ts :: sds)
      end
  end.
(** dashanalyzer.py 64-73: name and directory of the content *)
Definition base_name (mpd_filepath : string) : string :=
  let parts := split_all "/" mpd_filepath in
  if (2 <=? List.length parts)%nat then nth (List.length parts - 2) parts "" else "content".
(** dashanalyzer.py 73 *)
Definition base_path (mpd_filepath : string) : string := fst (path_split mpd_filepath).
(** dashanalyzer.py 64-87 and 241-263: the analysis of a manifest file *)
Definition analyze_source (fs : filesystem) (mpd_filepath : string) (root : xml) : result (vod_data * list mdata) :=
  let* sets := parse_source root in
  let* sds := source_media fs (base_path mpd_filepath) sets [] in
  let* (a, ms) := check_sets (base_name mpd_filepath) sds (mk_astate None (-1) (-1) []) in
  match a_last_good a, a_seg_duration a with
  | x :: r, Some d =>
      let lst := list_min r x in
      let all := map (fun m => (md_type m, m)) ms in
      let pick ct := match assoc ct all with Some m => [(ct, m)] | None => [] end in
      Ok (mk_vod_data 300 d (lst - a_first a + 1) (a_first a) (pick "video" ++ pick "audio")%list, ms)
  | _, _ => Err "ValueError"
  end.
