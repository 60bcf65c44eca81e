(** dashlib/timeformatconversions.py: ISO-8601 durations and UTC timestamps. *)
From Verif Require Import Base.
Open Scope Z_scope.

(** Longest run of ASCII digits at the head of a text, its value, and the rest:
    the regular expression [\d+] (greedy).  In RE_DURATION every run must be
    followed by a fixed letter, so giving characters back never helps and
    backtracking need not be modelled.  Non-ASCII digits are not modelled. *)
Fixpoint take_digits (s : string) (acc : Z) (n : nat) : Z * nat * string :=
  match s with
  | EmptyString => (acc, n, EmptyString)
  | String c t =>
      match digit_val c with
      | Some d => take_digits t (acc * 10 + d) (S n)
      | None => (acc, n, s)
      end
  end.

(** One optional group [((?P<x>\d+)L)?] of RE_DURATION (line 35): [Some v] and
    the text after the letter, or [None] and the text unchanged. *)
Definition opt_field (letter : ascii) (s : string) : option Z * string :=
  let '(v, n, rest) := take_digits s 0 0 in
  match n, rest with
  | S _, String c t => if Ascii.eqb c letter then (Some v, t) else (None, s)
  | _, _ => (None, s)
  end.

(** timeformatconversions.py 48-53: an absent group adds nothing *)
Definition opt_times (v : option Z) (k : Z) : Z :=
  match v with Some x => x * k | None => 0 end.

(** timeformatconversions.py 42-54 [iso_duration_to_seconds]; [re.match] only
    anchors at the start, so trailing text is ignored. *)
Definition iso_duration_to_seconds (duration : string) : result Z :=
  match duration with
  | String "P" (String "T" s0) =>
      let '(h, s1) := opt_field "H" s0 in
      let '(m, s2) := opt_field "M" s1 in
      let '(s, _) := opt_field "S" s2 in
      Ok (opt_times h 3600 + opt_times m 60 + opt_times s 1)
  | _ => Err "TimeFormatConversionError"
  end.

(** timeformatconversions.py 57-72 [seconds_to_iso_duration] for an int. *)
Definition seconds_to_iso_duration (nr_secs : Z) : string :=
  let days := nr_secs / 86400 in
  let rest := nr_secs mod 86400 in
  let hours := rest / 3600 in
  let rest2 := rest mod 3600 in
  let minutes := rest2 / 60 in
  let seconds := rest2 mod 60 in
  let p0 := "P"%string in
  let p1 := if days >? 0 then (p0 ++ print_Z days ++ "D")%string else p0 in
  let p2 := (p1 ++ "T")%string in
  let p3 := if hours >? 0 then (p2 ++ print_Z hours ++ "H")%string else p2 in
  let p4 := if minutes >? 0 then (p3 ++ print_Z minutes ++ "M")%string else p3 in
  if (seconds >? 0) || (String.eqb p4 "PT")
  then (p4 ++ print_Z seconds ++ "S")%string else p4.

(** ["%02d" % n]: two digits at least, zero padded (used on non-negative n). *)
Definition print_02d (n : Z) : string :=
  if (0 <=? n) && (n <? 10) then String "0" (print_Z n) else print_Z n.

(** Broken-down UTC time, the fields of Python's struct_time that strftime uses. *)
Record civil := mk_civil { cy : Z; cmo : Z; cd : Z; chh : Z; cmi : Z; css : Z }.

(** [time.gmtime(t)] for whole seconds since the epoch: the C library's
    conversion to the proleptic Gregorian calendar, not part of /repo; written
    with the era algorithm (400 years = 146097 days, years starting in March). *)
Definition gmtime (t : Z) : civil :=
  let z := t / 86400 + 719468 in
  let era := z / 146097 in
  let doe := z mod 146097 in
  let yoe := (doe - doe / 1460 + doe / 36524 - doe / 146096) / 365 in
  let doy := doe - (365 * yoe + yoe / 4 - yoe / 100) in
  let mp := (5 * doy + 2) / 153 in
  let d := doy - (153 * mp + 2) / 5 + 1 in
  let m := if mp <? 10 then mp + 3 else mp - 9 in
  let y := yoe + era * 400 + (if m <=? 2 then 1 else 0) in
  let sod := t mod 86400 in
  mk_civil y m d (sod / 3600) (sod mod 3600 / 60) (sod mod 60).

(** [time.strftime("%Y-%m-%dT%H:%M:%SZ", g)].  "%Y" is written without padding,
    as glibc does; it matters only before the year 1000. *)
Definition strftime_utc (g : civil) : string :=
  (print_Z (cy g) ++ "-" ++ print_02d (cmo g) ++ "-" ++ print_02d (cd g) ++ "T"
   ++ print_02d (chh g) ++ ":" ++ print_02d (cmi g) ++ ":" ++ print_02d (css g) ++ "Z")%string.

(** timeformatconversions.py 75-77 [make_timestamp]; int argument. *)
Definition make_timestamp (time_in_s : Z) : string := strftime_utc (gmtime time_in_s).
(** The same for a float argument: [time.gmtime] rounds down. *)
Definition make_timestamp_Q (time_in_s : Q) : string := make_timestamp (Qfloor time_in_s).
