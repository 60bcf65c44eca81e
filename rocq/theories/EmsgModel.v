(** dashlib/emsg.py and dashlib/scte35.py: event message boxes. *)
From Verif Require Import Base BytesModel.
Open Scope Z_scope.

(** emsg.py 53-64, the attributes of class Emsg. *)
Record emsg := mk_emsg {
  em_scheme : string; em_value : string; em_timescale : Z; em_delta : Z;
  em_duration : Z; em_id : Z; em_data : string
}.

(** emsg.py 66-80 [Emsg.get_box].  len() counts characters of the texts, the
    encoded texts may be longer. *)
Definition emsg_box (e : emsg) : result bytes :=
  let slen s := Z.of_nat (String.length s) in
  let size := 12 + 4*4 + slen (em_scheme e) + 1 + slen (em_value e) + 1 + slen (em_data e) in
  let* p1 := uint32_to_str size in
  let* p6 := uint32_to_str (em_timescale e) in
  let* p7 := uint32_to_str (em_delta e) in
  let* p8 := uint32_to_str (em_duration e) in
  let* p9 := uint32_to_str (em_id e) in
  Ok (p1 ++ bstr "emsg" ++ [0; 0; 0; 0] ++ (encode_utf8 (em_scheme e) ++ [0])
      ++ (encode_utf8 (em_value e) ++ [0]) ++ p6 ++ p7 ++ p8 ++ p9 ++ encode_utf8 (em_data e)).

(** scte35.py 44-46 *)
Definition make_xml_bool (v : bool) : string := if v then "true" else "false".

(** the double quote around the values of scte35.py 53-83 *)
Definition quote : string := String (ascii_of_nat 34) EmptyString.
(** the line break of scte35.py 83 *)
Definition newline : string := String (ascii_of_nat 10) EmptyString.
(** scte35.py 53-83: an attribute as text *)
Definition attr (k v : string) : string := (k ++ "=" ++ quote ++ v ++ quote)%string.

(** scte35.py 53-83 [create_scte35_insert_message] with the constant arguments
    of the only caller (lines 94-108): pts_adjustment 0, tier 4095, no cancel,
    not out of network, program 0, avail 0/0, not immediate, auto return. *)
Definition scte35_message (splice_event_id pts_time duration : Z) : string :=
  let line1 := ("<SpliceInfoSection " ++ attr "ptsAdjustment" "0" ++ " "
                ++ attr "scte35:tier" "4095" ++ ">")%string in
  let attributes := join " " [attr "spliceEventId" (print_Z splice_event_id);
                  attr "spliceEventCancelIndicator" (make_xml_bool false);
                  attr "outOfNetworkIndicator" (make_xml_bool false);
                  attr "uniqueProgramId" "0"; attr "availNum" "0"; attr "availsExpected" "0";
                  attr "spliceImmediateFlag" (make_xml_bool false)] in
  let line2 := ("<SpliceInsert " ++ attributes ++ " >")%string in
  let line3 := ("<Program><SpliceTime " ++ attr "ptsTime" (print_Z pts_time) ++ "/></Program>")%string in
  let line4 := ("<BreakDuration " ++ attr "autoReturn" (make_xml_bool true) ++ " "
                ++ attr "duration" (print_Z duration) ++ "/>")%string in
  join newline ([line1; line2; line3] ++ (if duration =? 0 then [] else [line4])
                ++ ["</SpliceInsert>"%string; "</SpliceInfoSection>"%string]).

(** scte35.py 86-116 [Scte35Emsg], [create_scte35_emsg]: the Emsg object. *)
Definition scte35_emsg (timescale presentation_time_offset presentation_time duration message_id splice_id : Z)
    : result emsg :=
  if negb (timescale =? 90000) then Err "Scte35Error"
  else
    let delta := presentation_time - presentation_time_offset in
    let pts_time := presentation_time mod 8589934592 in
    Ok (mk_emsg "urn:scte:scte35:2013:xml" "999" timescale delta duration message_id
                (scte35_message splice_id pts_time duration)).
(** scte35.py 113-116 [create_scte35_emsg]: the bytes of the box *)
Definition create_scte35_emsg ts pto pt d mid sid : result bytes :=
  let* e := scte35_emsg ts pto pt d mid sid in emsg_box e.

(** mediasegmentfilter.py 342-378: which splice a segment announces.  The
    nested loops over splice times and the two pre-warning instants (6 s and
    8 s before the splice); ends inclusive.  Returns the splice times of the
    minute of the segment and the advertisement length. *)
Definition splice_times (per_minute minute_start : Z) : list Z * Z :=
  if per_minute =? 2 then ([minute_start + 10; minute_start + 40], 10)
  else if per_minute =? 3 then ([minute_start + 10; minute_start + 36; minute_start + 46], 10)
  else if per_minute =? 8 then ([minute_start + 10; minute_start + 30], 20)
  else ([minute_start + 10], 10).

(** mediasegmentfilter.py 366-376: the first splice announced between [s] and [e] *)
Fixpoint find_splice (times : list Z) (s e : Z) : option Z :=
  match times with
  | [] => None
  | t :: r =>
      if ((s <=? t - 6) && (t - 6 <=? e)) || ((s <=? t - 8) && (t - 8 <=? e))
      then (* line 375: found_splice_time >= 0 ends the loop; a negative splice
              time would be treated as not found *)
           if 0 <=? t then Some t else find_splice r s e
      else find_splice r s e
  end.

(** The message of the segment starting at [seg_nr*seg_duration], if any:
    start time, splice time and ad duration in seconds.  Line 380 uses the loop
    variable splice_time; when a message is made the loop has just been left at
    found_splice_time, so both are the same. *)
Definition scte35_event (per_minute seg_nr seg_duration : Z) : option (Z * Z * Z) :=
  if (per_minute <? 1) || (8 <? per_minute) then None
  else
    let seg_starttime := seg_nr * seg_duration in
    let minute_start := seg_starttime - seg_starttime mod 60 in
    let '(times, ad_duration) := splice_times per_minute minute_start in
    match find_splice times seg_starttime (seg_starttime + seg_duration) with
    | None => None
    | Some t => Some (seg_starttime, t, ad_duration)
    end.

(** mediasegmentfilter.py 342-384 [create_scte35box]. *)
Definition create_scte35box (per_minute : Z) (seg_nr : option Z) (seg_duration : Z) : result bytes :=
  if (per_minute <? 1) || (8 <? per_minute) then Ok []
  else match seg_nr with
       | None => Err "TypeError"
       | Some n =>
           match scte35_event per_minute n seg_duration with
           | None => Ok []
           | Some (s, t, ad) =>
               create_scte35_emsg 90000 (s * 90000) (t * 90000) (ad * 90000) (t / 10) (t / 10)
           end
       end.
