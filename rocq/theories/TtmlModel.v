(** dashlib/ttml_timing_offset.py: shifting times in TTML documents. *)
From Verif Require Import Base BytesModel TimeModel.
Open Scope Z_scope.

(** [\d] and [\w] of a bytes pattern: ASCII only. *)
Definition bdigit (b : Z) : option Z := if (48 <=? b) && (b <=? 57) then Some (b - 48) else None.
(** [\w] of a bytes pattern (ttml_timing_offset.py 36) *)
Definition bword (b : Z) : bool :=
  ((48 <=? b) && (b <=? 57)) || ((65 <=? b) && (b <=? 90)) || ((97 <=? b) && (b <=? 122)) || (b =? 95).

(** literal text at the head *)
Fixpoint strip_prefix (p b : bytes) : option bytes :=
  match p, b with
  | [], _ => Some b
  | x :: p', y :: b' => if x =? y then strip_prefix p' b' else None
  | _, [] => None
  end.
(** [\d\d] at the head *)
Definition two_digits (b : bytes) : option (Z * bytes) :=
  match b with
  | x :: y :: r => match bdigit x, bdigit y with
                   | Some a, Some c => Some (a * 10 + c, r)
                   | _, _ => None
                   end
  | _ => None
  end.
(** [(?P<hours>\d\d):(?P<minutes>\d\d):(?P<seconds>\d\d)]; value in seconds *)
Definition match_hms (b : bytes) : option (Z * bytes) :=
  match two_digits b with
  | Some (h, 58 :: r1) =>
      match two_digits r1 with
      | Some (m, 58 :: r2) =>
          match two_digits r2 with
          | Some (s, r3) => Some (s + 60 * m + 3600 * h, r3)
          | None => None
          end
      | _ => None
      end
  | _ => None
  end.

(** ttml_timing_offset.py 35 TIME_PATTERN_S and lines 43-53 [replace]: at the head of [b];
    result is the replacement text and the rest. *)
Definition dec (n : Z) : bytes := bstr (print_Z n).
(** ["%02d" % n] (ttml_timing_offset.py 51) *)
Definition dec2 (n : Z) : bytes := bstr (print_02d n).
(** ttml_timing_offset.py 48-53: the new time as text *)
Definition fmt_hms (t : Z) : bytes :=
  dec2 (t / 3600) ++ [58] ++ dec2 (t mod 3600 / 60) ++ [58] ++ dec2 (t mod 3600 mod 60).
(** equals sign and double quote, ttml_timing_offset.py 35 *)
Definition eqquote : bytes := [61; 34].
(** ttml_timing_offset.py 35 and 43-53 for one of the two attribute names *)
Definition match_time_attr (name : bytes) (offset : Z) (b : bytes) : option (bytes * bytes) :=
  match strip_prefix (name ++ eqquote) b with
  | Some r => match match_hms r with
              | Some (t, rest) => Some (name ++ eqquote ++ fmt_hms (t + offset), rest)
              | None => None
              end
  | None => None
  end.
(** ttml_timing_offset.py 35: (begin|end) *)
Definition match_time (offset : Z) (b : bytes) : option (bytes * bytes) :=
  match match_time_attr (bstr "begin") offset b with
  | Some x => Some x
  | None => match_time_attr (bstr "end") offset b
  end.

(** greedy [\w+] and [\d+] *)
Fixpoint take_while (p : Z -> bool) (b : bytes) : bytes * bytes :=
  match b with
  | [] => ([], [])
  | x :: r => if p x then let '(a, z) := take_while p r in (x :: a, z) else ([], b)
  end.
(** [\d] of a bytes pattern (ttml_timing_offset.py 36, 37) *)
Definition is_bdigit (b : Z) : bool := (48 <=? b) && (b <=? 57).

(** ttml_timing_offset.py 36 CONTENT_PATTERN_S and lines 55-63 [replace_content].  A shorter
    match of [\w+] cannot be followed by a blank, so the greedy run is the
    only candidate; [(\.\d+)?] takes a fraction only with a digit in it. *)
Definition match_content (offset : Z) (b : bytes) : option (bytes * bytes) :=
  let '(lang, r) := take_while bword b in
  match lang, strip_prefix (bstr " : ") r with
  | _ :: _, Some r1 =>
      match match_hms r1 with
      | Some (t, r2) =>
          let rest := match r2 with
                      | 46 :: r3 => match take_while is_bdigit r3 with
                                    | (_ :: _, r4) => r4
                                    | ([], _) => r2
                                    end
                      | _ => r2
                      end in
          Some (lang ++ bstr " : UTC = " ++ bstr (make_timestamp (t + offset)), rest)
      | None => None
      end
  | _, _ => None
  end.

(** ttml_timing_offset.py 37 CONTENT_PATTERN_SEGMENT and lines 65-68 [replace_segment_nr]. *)
Definition match_segment (seg_nr : Z) (b : bytes) : option (bytes * bytes) :=
  match strip_prefix (bstr "Segment # ") b with
  | Some r => match take_while is_bdigit r with
              | (_ :: _, rest) => Some (bstr "Segment # " ++ dec seg_nr, rest)
              | ([], _) => None
              end
  | None => None
  end.

(** [re.sub]: leftmost, non-overlapping, left to right.  All three patterns
    match at least one byte, so every step consumes input and [fuel], the
    length of the input, never runs out. *)
Fixpoint re_sub (m : bytes -> option (bytes * bytes)) (fuel : nat) (b : bytes) : bytes :=
  match fuel with
  | O => b
  | S f => match m b with
           | Some (out, rest) => out ++ re_sub m f rest
           | None => match b with [] => [] | x :: r => x :: re_sub m f r end
           end
  end.

(** ttml_timing_offset.py 40-73 [adjust_ttml_content]. *)
Definition sub_all (m : bytes -> option (bytes * bytes)) (b : bytes) : bytes :=
  re_sub m (List.length b) b.
(** ttml_timing_offset.py 40-73 [adjust_ttml_content] *)
Definition adjust_ttml_content (xml : bytes) (offset_in_s output_seg_nr : Z) : bytes :=
  sub_all (match_segment output_seg_nr)
    (sub_all (match_content offset_in_s)
      (sub_all (match_time offset_in_s) xml)).
