(** Model of generate_response_with_xlink and insert_asset_identifier in
    dashlivesim/dashlib/mpd_proxy.py (lines 118-196 and 294-298), of the last
    step of get_mpd (lines 56-59), and of get_full_xml in
    dashlivesim/dashlib/mpdprocessor.py (lines 455-463). *)
From Verif Require Import Base ConfigModel StrModel PeriodModel MpdModel.
Local Open Scope string_scope.
Open Scope Z_scope.

(** ** Python string operations *)
Definition slen (s : string) : Z := Z.of_nat (String.length s).
(** A slice bound or search start: negative counts from the end, then clamped. *)
Definition fix_bound (s : string) (i : Z) : nat :=
  Z.to_nat (if i <? 0 then Z.max 0 (slen s + i) else Z.min i (slen s)).
(** [s.find(p)] *)
Definition py_find (p s : string) : Z := match find p s with Some i => Z.of_nat i | None => -1 end.
(** [s.find(p, start)] for a non-empty [p] (a start beyond the end finds nothing). *)
Definition py_find_from (p s : string) (start : Z) : Z :=
  let b := fix_bound s start in
  match find p (drop b s) with Some i => Z.of_nat (b + i) | None => -1 end.
(** [s[a:b]] *)
Definition str_slice (a b : Z) (s : string) : string :=
  take (fix_bound s b - fix_bound s a) (drop (fix_bound s a) s).
(** [s.replace(old, new)]; with an empty [old] Python puts [new] before every
    character and at the end. *)
Fixpoint interleave (new s : string) : string :=
  match s with EmptyString => new | String a r => new ++ String a (interleave new r) end.
(** [s.replace(old, new)] (mpd_proxy.py 176) *)
Definition py_replace (old new s : string) : string :=
  match old with EmptyString => interleave new s | _ => replace_all old new s end.

(** ** get_full_xml, mpdprocessor.py 455-463 *)
(** The writer is ElementTree's (Python 3.8 or later: attributes in their
    order).  The tags are written without a prefix and the namespace as xmlns=,
    which is what the replacements of line 461 leave; text that itself contains
    "ns0:" is not modelled.  Carriage returns and tabs in attribute values are
    left as they are. *)
Fixpoint escape (quote : bool) (s : string) : string :=
  match s with
  | EmptyString => ""
  | String a r =>
      (if Ascii.eqb a "&" then "&amp;"
       else if Ascii.eqb a "<" then "&lt;"
       else if Ascii.eqb a ">" then "&gt;"
       else if quote && Ascii.eqb a """" then "&quot;"
       else if quote && Ascii.eqb a "010" then "&#10;"
       else String a "") ++ escape quote r
  end.
(** One attribute as ElementTree writes it. *)
Definition write_attr (kv : string * string) : string := " " ++ fst kv ++ "=""" ++ escape true (snd kv) ++ """".
(** All attributes of an element. *)
Definition write_attrs (l : list (string * string)) : string := fold_right (fun kv s => write_attr kv ++ s) "" l.
(** One element: tag and attributes, then the content, or " />" when there is none. *)
Definition write_elem (open tag text inner : string) (empty : bool) : string :=
  "<" ++ open ++ (if String.eqb text "" && empty then " />" else ">" ++ escape false text ++ inner ++ "</" ++ tag ++ ">").
(** ElementTree.tostring of an element below the root (mpdprocessor.py 458) *)
Fixpoint write_xml (x : xml) : string :=
  let 'Elem t a s k := x in
  write_elem (t ++ write_attrs a) t s (fold_right (fun y r => write_xml y ++ r) "" k)
    (match k with [] => true | _ => false end).
(** The children one after the other. *)
Definition write_kids (k : list xml) : string := fold_right (fun y r => write_xml y ++ r) "" k.
(** mpdprocessor.py 462: the XML declaration *)
Definition xml_intro : string := "<?xml version=""1.0"" encoding=""utf-8""?>" ++ String "010" "".
(** mpdprocessor.py 461: the namespace as it is left by the replacements *)
Definition xmlns_attr : string := "xmlns=""urn:mpeg:dash:schema:mpd:2011""".
(** mpdprocessor.py 455-463 [get_full_xml] *)
Definition full_xml (x : xml) : string :=
  let 'Elem t a s k := x in
  xml_intro ++ write_elem (t ++ " " ++ xmlns_attr ++ write_attrs a) t s (write_kids k)
                          (match k with [] => true | _ => false end).

(** ** generate_response_with_xlink, mpd_proxy.py 118-196 *)
(** mpd_proxy.py 127-130: the ids of the Period children.  The code parses the text it
    has just written; here they are read from the tree. *)
Fixpoint ids_of (l : list xml) : result (list string) :=
  match l with
  | [] => Ok []
  | x :: r =>
      if is_tag "Period" x then
        match get "id" x with
        | None => Err "KeyError"
        | Some i => let* is := ids_of r in Ok (i :: is)
        end
      else ids_of r
  end.
(** mpd_proxy.py 127-130 for the children of MPD *)
Definition period_ids (x : xml) : result (list string) := ids_of (x_kids x).

(** mpd_proxy.py 134: [[x for x in ids if int(x[1:]) % k == 0]] *)
Fixpoint linked_ids (k : Z) (ids : list string) : result (list string) :=
  match ids with
  | [] => Ok []
  | x :: r =>
      let* z := py_int (drop 1 x) in
      let* m := py_mod z k in
      let* l := linked_ids k r in
      Ok (if m =? 0 then x :: l else l)
  end.

(** mpd_proxy.py 136: the first match of the pattern, <BaseURL>, then as many characters
    other than a double quote as possible, then </BaseURL>. *)
Fixpoint upto_quote (s : string) : string :=
  match s with
  | EmptyString => ""
  | String a r => if Ascii.eqb a """" then "" else String a (upto_quote r)
  end.
(** position of the last occurrence *)
Fixpoint rfind (p s : string) : option nat :=
  match s with
  | EmptyString => if starts_with p s then Some O else None
  | String _ r =>
      match rfind p r with
      | Some i => Some (S i)
      | None => if starts_with p s then Some O else None
      end
  end.
(** mpd_proxy.py 136: a match at the head *)
Definition base_url_at (s : string) : option string :=
  if starts_with "<BaseURL>" s then
    let span := upto_quote (drop 9 s) in
    match rfind "</BaseURL>" span with Some i => Some (take i span) | None => None end
  else None.
(** mpd_proxy.py 136: the first match *)
Fixpoint base_url0 (s : string) : option string :=
  match base_url_at s with
  | Some u => Some u
  | None => match s with EmptyString => None | String _ r => base_url0 r end
  end.

(** mpd_proxy.py 294-298 insert_asset_identifier *)
Definition asset_identifier : string :=
  String "010" ("<AssetIdentifier schemeIdUri=""urn:org:dashif:asset-id:2013"" value=""md:cid:"
                ++ "EIDR:10.5240%2f0EFB-02CD-126E-8092-1E49-W""></AssetIdentifier>").
(** mpd_proxy.py 294-298 [insert_asset_identifier] *)
Definition insert_asset_identifier (response : string) (start_pos : Z) : string :=
  let ad_pos := py_find_from ">" response start_pos + 1 in
  str_slice 0 ad_pos response ++ asset_identifier ++ str_slice ad_pos (slen response) response.

(** mpd_proxy.py 147-166: the text put in place of a period. *)
Definition xlink_tail : string := """ xlink:actuate=""onLoad"" xmlns:xlink=""http://www.w3.org/1999/xlink""></Period>".
(** mpd_proxy.py 147-166: a period with a link *)
Definition link_to (href : string) : string := "<Period xlink:href=""" ++ href ++ xlink_tail.
(** mpd_proxy.py 148-162: the address of the advertisements *)
Definition ad_site : string := "http://vm1.dashif.org/dynamicxlink/".
(** mpd_proxy.py 147-166: the choice of the link *)
Definition xlink_period (base : option string) (filename id : string) (insert_ad : Z) : result string :=
  if insert_ad =? 4 then Ok (link_to (ad_site ++ "invalidurl.php"))
  else if insert_ad =? 3 then Ok (link_to (ad_site ++ "ad.php?id=6_ad_twoperiods_withremote"))
  else if insert_ad =? 2 then Ok (link_to (ad_site ++ "ad.php?id=6_ad_twoperiods"))
  else if (insert_ad =? 1) || (insert_ad =? 5) then Ok (link_to (ad_site ++ "ad.php?id=6_ad"))
  else match base with
       | None => Err "IndexError"
       | Some u => Ok (link_to (u ++ filename ++ "+" ++ id ++ ".period"))
       end.
(** mpd_proxy.py 172-175: default content for option 5; "</Period>" has nine characters. *)
Definition default_comment : string :=
  String "010" "<!--Default content that will be played if the xlink is not able to load.-->".
(** mpd_proxy.py 172-175: the link with the old content kept inside *)
Definition with_default (original link : string) : string :=
  str_slice 0 (-9) link ++ default_comment ++ str_slice (py_find ">" original + 1) (slen original) original.

(** mpd_proxy.py 137-179: the loop over all ids; [counter] counts the selected ones. *)
Fixpoint xlink_loop (base : option string) (filename : string) (linked : list string) (insert_ad : Z)
    (ids : list string) (counter : Z) (response : string) : result string :=
  match ids with
  | [] => Ok response
  | id :: rest =>
      let start_pos := py_find id response - 12 in
      let end_pos := py_find_from "</Period>" response start_pos + 9 in
      if existsb (String.eqb id) linked then
        let counter := counter + 1 in
        let original := str_slice start_pos end_pos response in
        let* link := xlink_period base filename id insert_ad in
        if (0 <? insert_ad) && (counter =? 1) then
          xlink_loop base filename linked insert_ad rest counter (insert_asset_identifier response start_pos)
        else
          let link := if insert_ad =? 5 then with_default original link else link in
          xlink_loop base filename linked insert_ad rest counter (py_replace original link response)
      else
        xlink_loop base filename linked insert_ad rest counter
          (if 0 <? insert_ad then insert_asset_identifier response start_pos else response)
  end.

(** mpd_proxy.py 180-195: the reply to a .period request. *)
Definition period_reply (response filename : string) : result string :=
  match split_all "+" filename with
  | _ :: f :: _ =>
      let xs := py_find "xmlns=" response in
      let xe := py_find_from """" response (xs + 7) + 1 in
      let start_pos := py_find (str_slice 0 (-7) f) response - 12 in
      let end_pos := py_find_from "</Period>" response start_pos + 9 in
      let original := str_slice start_pos end_pos response in
      Ok (replace_first """>" (""" " ++ str_slice xs xe response ++ ">") original)
  | _ => Err "IndexError"
  end.

(** mpd_proxy.py 118-196 [generate_response_with_xlink] *)
Definition response_with_xlink (response : string) (ids : result (list string)) (ext filename : string)
    (nr_periods nr_xlinks insert_ad : Z) : result string :=
  if String.eqb ext ".mpd" then
    let* ids := ids in
    let* k := py_div nr_periods nr_xlinks in
    let* linked := linked_ids k ids in
    xlink_loop (base_url0 response) filename linked insert_ad ids 0 response
  else period_reply response filename.

(** ** get_mpd, mpd_proxy.py 10-59, down to the text sent.  [source] is the
    parsed source manifest (lines 13-19 choose the file). *)
Definition get_mpd_text (c : config) (e : menv) (source : xml) (now : Z) : result string :=
  let* x := get_mpd c e source now in
  let m := Z.min (c_xlink c) 60 in
  if 0 <? m then
    response_with_xlink (full_xml x) (period_ids x) (c_ext c) (c_filename c) (Z.min (c_pph c) 60) m (c_insert_ad c)
  else Ok (full_xml x).
