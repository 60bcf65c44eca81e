(** vodanalyzer/dashanalyzer.py: the analysis of VoD content, the timing tables
    and the configuration file it writes, and their readers in
    dashlib/segtimeline.py and dashlib/configprocessor.py. *)
From Verif Require Import Base BytesModel ConfigModel Mp4Model InitModel MediaModel TimelineModel.
Local Open Scope string_scope.
Open Scope Z_scope.

(** ** Input *)
(** A Representation of the VoD manifest with its init segment and the media
    files of its directory.  The files matching the media pattern are taken to
    be named by their number in plain decimal digits, so that the pattern search
    of dashanalyzer.py 134-144 and the path of line 193 find the same files. *)
Record vrep := mk_vrep { vr_id : string; vr_init : bytes; vr_files : list (Z * bytes) }.
(** An AdaptationSet: contentType, and duration, timescale (1 when absent) and
    startNumber of its SegmentTemplate as integers, vodanalyzer/mpdprocessor.py
    138-176. *)
Record vset := mk_vset {
  vs_type : string;
  vs_duration : Z;
  vs_timescale : Z;
  vs_start : Z;
  vs_reps : list vrep
}.
(** mpdprocessor.py 162-165 *)
Definition set_duration (s : vset) : result Z := py_div (vs_duration s) (vs_timescale s).

(** ** dashanalyzer.py 89-146: initMedia and getSegmentRange *)
(** [list.sort] *)
Fixpoint insert_nr (x : Z) (l : list Z) : list Z :=
  match l with [] => [x] | y :: r => if x <=? y then x :: l else y :: insert_nr x r end.
(** [list.sort] (dashanalyzer.py 140) *)
Fixpoint sort_nrs (l : list Z) : list Z :=
  match l with [] => [] | x :: r => insert_nr x (sort_nrs r) end.
(** dashanalyzer.py 141-143 *)
Fixpoint no_gap (l : list Z) : bool :=
  match l with
  | x :: ((y :: _) as r) => (y =? x + 1) && no_gap r
  | _ => true
  end.
(** dashanalyzer.py 127-146 [getSegmentRange]: firstNumber and lastNumber *)
Definition segment_range (numbers : list Z) : result (Z * Z) :=
  let l := sort_nrs numbers in
  if no_gap l then
    match l with
    | [] => Err "IndexError"
    | first :: _ => Ok (first, last l first)
    end
  else Err "DashAnalyzerError".
(** The entries of rep_data that are used later. *)
Record rdata := mk_rdata {
  rd_id : string;
  rd_default : Z;
  rd_first : Z;
  rd_last : Z;
  rd_files : list (Z * bytes)
}.
(** dashanalyzer.py 101-117 for one representation, with its track_timescale. *)
Definition init_rep (r : vrep) : result (rdata * Z) :=
  let* (_, st) := init_filter (vr_init r) in
  let* _ := match is_track_id st with Some _ => Ok tt | None => Err "TypeError" end in
  let* d := match is_trex st with Some (_, d, _, _) => Ok d | None => Err "AttributeError" end in
  let* (first, lst) := segment_range (map fst (vr_files r)) in
  Ok (mk_rdata (vr_id r) d first lst (vr_files r), is_timescale st).
(** dashanalyzer.py 101-121: the representations of a set, and the timescale of the set *)
Fixpoint init_reps (l : list vrep) (timescale : option Z) : result (list rdata * option Z) :=
  match l with
  | [] => Ok ([], timescale)
  | r :: rest =>
      let* (rd, ts) := init_rep r in
      let* t := match timescale with
                | None => Ok ts
                | Some t => if ts =? t then Ok t else Err "DashAnalyzerError"
                end in
      let* (rds, out) := init_reps rest (Some t) in
      Ok (rd :: rds, out)
  end.
(** One entry of self.as_data after initMedia. *)
Record sdata := mk_sdata { sd_set : vset; sd_reps : list rdata; sd_timescale : option Z }.
(** dashanalyzer.py 89-125 [initMedia]; a set without contentType ends the program and is
    left out here. *)
Fixpoint init_media (sets : list vset) (seen : list string) : result (list sdata) :=
  match sets with
  | [] => Ok []
  | s :: rest =>
      if str_in (vs_type s) seen then Err "DashAnalyzerError"
      else
        let* (rds, ts) := init_reps (vs_reps s) None in
        let* l := init_media rest (vs_type s :: seen) in
        Ok (mk_sdata s rds ts :: l)
  end.

(** ** Timing tables *)
(** [struct.pack] of 'H' and 'I' in native (little endian) order, and 'HHII'
    without padding: configprocessor.py 46. *)
Fixpoint le_bytes (n : nat) (z : Z) : bytes :=
  match n with O => [] | S k => z mod 256 :: le_bytes k (z / 256) end.
(** [struct.unpack] of 'H' and 'I' in native order (segtimeline.py 57-63) *)
Fixpoint le_val (b : bytes) : Z := match b with [] => 0 | x :: r => x + 256 * le_val r end.
(** [struct.pack] of 'H' and 'I' in native order (dashanalyzer.py 154-157) *)
Definition pack_uint (n : nat) (z : Z) : result bytes :=
  if (0 <=? z) && (z <? 256 ^ Z.of_nat n) then Ok (le_bytes n z) else Err "struct.error".
(** dashanalyzer.py 154-157 [writeSegTiming] *)
Definition seg_timing (first start duration repeats : Z) : result bytes :=
  let* a := pack_uint 2 first in
  let* b := pack_uint 2 repeats in
  let* c := pack_uint 4 start in
  let* d := pack_uint 4 duration in
  Ok (a ++ b ++ c ++ d)%list.
(** dashlib/segtimeline.py 57-63: the table is read 12 bytes at a time.  [fuel]:
    the length of the file is enough. *)
Fixpoint read_entries (fuel : nat) (data : bytes) : result (list entry) :=
  match data, fuel with
  | [], _ => Ok []
  | _, O => Ok []
  | _, S f =>
      let chunk := btake 12 data in
      if blen chunk =? 12 then
        let e := mk_entry (le_val (bslice 0 2 chunk)) (le_val (bslice 2 4 chunk))
                          (le_val (bslice 4 8 chunk)) (le_val (bslice 8 12 chunk)) in
        let* l := read_entries f (bdrop 12 data) in Ok (e :: l)
      else Err "struct.error"
  end.
(** segtimeline.py 57-63: the whole file *)
Definition read_table (data : bytes) : result (list entry) := read_entries (List.length data) data.

(** ** dashanalyzer.py 148-243: checkAndUpdateMediaData *)
(** dashanalyzer.py 200-202: the arguments of the filter *)
Definition plain_params (default : Z) : mparams :=
  mk_mparams None 1 0 false None 0 false (Some default) false false 0%Q.
(** dashanalyzer.py 200-205: tfdt and duration of a file *)
Definition measure (default : Z) (file : bytes) : result (Z * Z) :=
  let* (_, st) := media_filter (plain_params default) file in
  match ms_tfdt st, ms_duration st with
  | Some t, Some d => Ok (t, d)
  | _, _ => Err "TypeError"
  end.
(** The local variables of dashanalyzer.py 188-191, startTick, endTick and endNr of
    rep_data, and what has been written. *)
Record wstate := mk_wstate {
  w_repeat : Z;
  w_first : Z;
  w_start : Z;
  w_last : Z;
  w_start_tick : option Z;
  w_end_tick : option Z;
  w_end_nr : option Z;
  w_out : bytes
}.
(** dashanalyzer.py 174-176 and 188-191: at first *)
Definition wstate0 (out : bytes) : wstate := mk_wstate (-1) (-1) (-1) 0 None None None out.
(** dashanalyzer.py 207-233: one segment.  [writes] is rep_nr == 0. *)
Definition check_segment (writes : bool) (first seg_ticks max_diff nr tfdt duration : Z) (w : wstate) : result wstate :=
  let* w1 :=
    if duration =? w_last w then
      Ok (mk_wstate (w_repeat w + 1) (w_first w) (w_start w) (w_last w) (w_start_tick w) (w_end_tick w) (w_end_nr w) (w_out w))
    else
      let* b := if negb (w_last w =? 0) && writes then seg_timing (w_first w) (w_start w) (w_last w) (w_repeat w) else Ok [] in
      Ok (mk_wstate 0 nr tfdt duration (w_start_tick w) (w_end_tick w) (w_end_nr w) (w_out w ++ b)%list) in
  let start := match w_start_tick w1 with None => tfdt | Some t => t end in
  let ideal := (nr - first + 1) * seg_ticks + start in
  if Z.abs (ideal - (tfdt + duration)) <? max_diff then
    Ok (mk_wstate (w_repeat w1) (w_first w1) (w_start w1) (w_last w1) (Some start) (Some (tfdt + duration)) (Some nr) (w_out w1))
  else Err "DashAnalyzerError".
(** dashanalyzer.py 193-194: the file of a number, when it exists *)
Fixpoint file_nr (nr : Z) (files : list (Z * bytes)) : option bytes :=
  match files with [] => None | (k, b) :: r => if k =? nr then Some b else file_nr nr r end.
(** dashanalyzer.py 192-234: the loop over existing files; there are as many as [fuel] at
    most. *)
Fixpoint check_loop (fuel : nat) (writes : bool) (rd : rdata) (seg_ticks max_diff nr : Z) (w : wstate) : result wstate :=
  match file_nr nr (rd_files rd), fuel with
  | None, _ => Ok w
  | _, O => Ok w
  | Some file, S f =>
      let* (tfdt, duration) := measure (rd_default rd) file in
      let* w1 := check_segment writes (rd_first rd) seg_ticks max_diff nr tfdt duration w in
      check_loop f writes rd seg_ticks max_diff (nr + 1) w1
  end.
(** The attributes of the analyzer that the checks set and compare. *)
Record astate := mk_astate {
  a_seg_duration : option Z;
  a_first : Z;
  a_start_nr : Z;
  a_last_good : list Z
}.
(** dashanalyzer.py 173-191 and 237-240 for one representation.  int(timescale * 0.1) is
    timescale // 10 for the 32 bit values of timescale.  The variable [duration]
    of line 238 is lastDuration after at least one segment; with none, the
    negative number is refused by pack. *)
Definition check_rep (writes : bool) (s : vset) (ts duration : Z) (rd : rdata) (a : astate) (out : bytes)
    : result (astate * bytes * Z) :=
  let* a1 :=
    if 0 <=? a_first a then
      if rd_first rd =? a_first a then Ok a else Err "AssertionError"
    else Ok (mk_astate (a_seg_duration a) (rd_first rd) (a_start_nr a) (a_last_good a)) in
  let* a2 :=
    if 0 <=? a_start_nr a1 then
      if vs_start s =? a_start_nr a1 then Ok a1 else Err "AssertionError"
    else Ok (mk_astate (a_seg_duration a1) (a_first a1) (vs_start s) (a_last_good a1)) in
  let* w := check_loop (List.length (rd_files rd)) writes rd (duration * ts) (ts / 10) (rd_first rd) (wstate0 out) in
  if writes then
    let* b := seg_timing (w_first w) (w_start w) (w_last w) (w_repeat w) in
    match w_end_nr w, w_end_tick w, w_start_tick w with
    | Some n, Some e, Some t =>
        Ok (mk_astate (a_seg_duration a2) (a_first a2) (a_start_nr a2) (a_last_good a2 ++ [n])%list, (w_out w ++ b)%list, e - t)
    | _, _, _ => Err "TypeError"
    end
  else Ok (a2, w_out w, 0).
(** The other representations of a set, dashanalyzer.py 172-236. *)
Fixpoint check_reps (s : vset) (ts duration : Z) (l : list rdata) (a : astate) (out : bytes) : result (astate * bytes) :=
  match l with
  | [] => Ok (a, out)
  | rd :: rest =>
      let* (x, _) := check_rep false s ts duration rd a out in
      let '(a1, out1) := x in check_reps s ts duration rest a1 out1
  end.
(** What the analysis leaves for a set: content type, representation ids,
    timescale, totalTicks, name and content of the table. *)
Record mdata := mk_mdata {
  md_type : string;
  md_reps : list string;
  md_timescale : Z;
  md_total : Z;
  md_dat : string;
  md_table : bytes
}.
(** dashanalyzer.py 160-240 for one set *)
Definition check_set (base : string) (sd : sdata) (a : astate) : result (astate * mdata) :=
  let s := sd_set sd in
  let* ts := match sd_timescale sd with Some t => Ok t | None => Err "KeyError" end in
  let* d := set_duration s in
  let* duration := match a_seg_duration a with
                   | None => Ok d
                   | Some d0 => if d0 =? d then Ok d0 else Err "AssertionError"
                   end in
  let a0 := mk_astate (Some duration) (a_first a) (a_start_nr a) (a_last_good a) in
  match sd_reps sd with
  | [] => Err "KeyError"
  | rd :: rest =>
      let* (x, total) := check_rep true s ts duration rd a0 [] in
      let '(a1, out) := x in
      let* (a2, out2) := check_reps s ts duration rest a1 out in
      Ok (a2, mk_mdata (vs_type s) (map rd_id (sd_reps sd)) ts total (base ++ "_" ++ vs_type s ++ ".dat") out2)
  end.
(** dashanalyzer.py 159-240: the loop over the sets *)
Fixpoint check_sets (base : string) (l : list sdata) (a : astate) : result (astate * list mdata) :=
  match l with
  | [] => Ok (a, [])
  | sd :: rest =>
      let* (a1, m) := check_set base sd a in
      let* (a2, ms) := check_sets base rest a1 in
      Ok (a2, m :: ms)
  end.

(** ** The configuration file *)
(** A file of configparser.RawConfigParser as sections of options; writing it as
    text and reading it again (values without line breaks, with the white space
    around them taken away) is the standard library's. *)
Definition ini := list (string * list (string * string)).
(** [key in d], [d[key]] for a dictionary (configprocessor.py 316-324) *)
Fixpoint assoc {A} (key : string) (l : list (string * A)) : option A :=
  match l with [] => None | (k, v) :: r => if String.eqb k key then Some v else assoc key r end.
(** [config.get] *)
Definition ini_get (f : ini) (section option : string) : result string :=
  match assoc section f with
  | None => Err "NoSectionError"
  | Some l => match assoc option l with None => Err "NoOptionError" | Some v => Ok v end
  end.
(** [config.getint] (configprocessor.py 274-298) *)
Definition ini_int (f : ini) (section option : string) : result Z :=
  let* v := ini_get f section option in py_int v.
(** The dictionary given to write_config. *)
Record vod_data := mk_vod_data {
  vd_tsbd : Z;
  vd_duration : Z;
  vd_n : Z;
  vd_first : Z;
  vd_media : list (string * mdata)
}.
(** configprocessor.py 316-324 of [write_config] *)
Definition media_section (media : list (string * mdata)) (ct : string) : ini :=
  match assoc ct media with
  | None => []
  | Some m =>
      [(ct, [("representations", strip (join "," (md_reps m)));
             ("timescale", print_Z (md_timescale m));
             ("total_duration", print_Z (md_total m));
             ("dat_file", strip (md_dat m))])]
  end.
(** configprocessor.py 305-326 [write_config]: all sections *)
Definition write_config (d : vod_data) : ini :=
  (("General", [("version", "1.1")])
  :: ("Setup", [("default_tsbd_secs", print_Z (vd_tsbd d));
                ("segment_duration_s", print_Z (vd_duration d));
                ("nr_segments_in_loop", print_Z (vd_n d));
                ("first_segment_in_loop", print_Z (vd_first d))])
  :: flat_map (media_section (vd_media d)) ["video"; "audio"; "subtitles"])%list.
(** configprocessor.py 292-301 of [read_config]; segment_duration_ms is used by
    nothing else. *)
Definition read_media (f : ini) (version : string) (ct : string) : result (list (string * media)) :=
  let missing {A} (r : result A) (dflt : A) : result A :=
    match r with
    | Err e => if String.eqb e "NoSectionError" || String.eqb e "NoOptionError" then Ok dflt else Err e
    | x => x
    end in
  missing (
    let* reps := ini_get f ct "representations" in
    let* timescale := ini_int f ct "timescale" in
    let l := map strip (split_all "," reps) in
    if String.eqb version "1.1" then
      missing (
        let* total := ini_int f ct "total_duration" in
        missing (let* dat := ini_get f ct "dat_file" in Ok [(ct, mkMedia timescale l (Some total) (Some dat))])
          [(ct, mkMedia timescale l (Some total) None)])
        [(ct, mkMedia timescale l None None)]
    else Ok [(ct, mkMedia timescale l None None)]) [].
(** configprocessor.py 291-301: the loop over the content types *)
Fixpoint read_medias (f : ini) (version : string) (l : list string) : result (list (string * media)) :=
  match l with
  | [] => Ok []
  | ct :: rest =>
      let* m := read_media f version ct in
      let* ms := read_medias f version rest in
      Ok (m ++ ms)%list
  end.
(** configprocessor.py 266-301 [read_config] *)
Definition read_config (f : ini) : result vodcfg :=
  let* version := ini_get f "General" "version" in
  if str_in version ["1.0"; "1.1"] then
    let optional r := match r with Err e => if String.eqb e "NoOptionError" then Ok None else Err e | Ok z => Ok (Some z) end in
    let* first := ini_int f "Setup" "first_segment_in_loop" in
    let* s := optional (ini_int f "Setup" "segment_duration_s") in
    let s := match s with Some z => z | None => 0 end in
    let* ms := optional (ini_int f "Setup" "segment_duration_ms") in
    let s := match ms with Some _ => 0 | None => s end in
    let ms := match ms with Some z => z | None => 0 end in
    if (s =? 0) && (ms =? 0) then Err "ConfigProcessorError"
    else
      let* n := ini_int f "Setup" "nr_segments_in_loop" in
      let* tsbd := ini_int f "Setup" "default_tsbd_secs" in
      let* media := read_medias f version ["video"; "audio"; "subtitles"; "image"] in
      Ok (mkVod first n s tsbd media)
  else Err "ConfigProcessorError".

(** ** dashanalyzer.py 84-87 and 249-263: analyze and write_config *)
(** The loop data of dashanalyzer.py 241-243, the media data of lines 254-260. *)
Fixpoint list_min (l : list Z) (m : Z) : Z := match l with [] => m | x :: r => list_min r (Z.min m x) end.
(** dashanalyzer.py 84-87 [analyze], 241-243 and 249-263 *)
Definition analyze (base : string) (sets : list vset) : result (vod_data * list mdata) :=
  let* sds := init_media sets [] in
  let* (a, ms) := check_sets base sds (mk_astate None (-1) (-1) []) in
  match a_last_good a, a_seg_duration a with
  | x :: r, Some d =>
      let lst := list_min r x in
      let all := map (fun m => (md_type m, m)) ms in
      let pick ct := match assoc ct all with Some m => [(ct, m)] | None => [] end in
      Ok (mk_vod_data 300 d (lst - a_first a + 1) (a_first a) (pick "video" ++ pick "audio")%list, ms)
  | _, _ => Err "ValueError"
  end.
