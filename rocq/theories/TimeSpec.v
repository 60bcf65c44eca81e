(** Specification of durations and the Gregorian calendar, independent of the
    algorithms in TimeModel.v. *)
From Verif Require Import Base.
Open Scope Z_scope.

(** Gregorian leap years and month lengths. *)
Definition leap (y : Z) : bool :=
  ((y mod 4 =? 0) && negb (y mod 100 =? 0)) || (y mod 400 =? 0).
Definition year_days (y : Z) : Z := if leap y then 366 else 365.
Definition month_days (lp : bool) (m : Z) : Z :=
  if m =? 2 then (if lp then 29 else 28)
  else if (m =? 4) || (m =? 6) || (m =? 9) || (m =? 11) then 30 else 31.

(** Days from 1970-01-01 to the first of January of year 1970+n, by counting. *)
Fixpoint days_to_year (n : nat) : Z :=
  match n with
  | O => 0
  | S k => days_to_year k + year_days (1970 + Z.of_nat k)
  end.
(** Days from the first of January to the first of month m+1, by counting. *)
Fixpoint days_to_month (lp : bool) (m : nat) : Z :=
  match m with
  | O => 0
  | S k => days_to_month lp k + month_days lp (Z.of_nat k + 1)
  end.

(** The instant a calendar reading denotes, in seconds after the epoch. *)
Definition instant (y m d hh mi ss : Z) : Z :=
  (days_to_year (Z.to_nat (y - 1970)) + days_to_month (leap y) (Z.to_nat (m - 1)) + (d - 1)) * 86400
  + hh * 3600 + mi * 60 + ss.

Definition valid_reading (y m d hh mi ss : Z) : Prop :=
  1970 <= y /\ 1 <= m <= 12 /\ 1 <= d <= month_days (leap y) m /\
  0 <= hh < 24 /\ 0 <= mi < 60 /\ 0 <= ss < 60.

(** Reading a timestamp text: split at the separators, read the numbers. *)
Definition read_timestamp (s : string) : option (Z * Z * Z * Z * Z * Z) :=
  match split_first "-" s with
  | Some (y, r1) => match split_first "-" r1 with
  | Some (m, r2) => match split_first "T" r2 with
  | Some (d, r3) => match split_first ":" r3 with
  | Some (h, r4) => match split_first ":" r4 with
  | Some (mi, r5) => match split_first "Z" r5 with
  | Some (ss, EmptyString) =>
      match py_int y, py_int m, py_int d, py_int h, py_int mi, py_int ss with
      | Ok y, Ok m, Ok d, Ok h, Ok mi, Ok ss => Some (y, m, d, h, mi, ss)
      | _, _, _, _, _, _ => None
      end
  | _ => None end | None => None end | None => None end
  | None => None end | None => None end | None => None
  end.

(** Value of an ISO-8601 duration text P[nD][T[nH][nM][nS]], read field by
    field; a reader that accepts the "T" with nothing behind it. *)
Definition read_part (letter : ascii) (s : string) : Z * string :=
  match split_first letter s with
  | Some (a, b) => match py_int a with Ok v => (v, b) | Err _ => (0, s) end
  | None => (0, s)
  end.
Definition read_duration (s : string) : option Z :=
  match s with
  | String "P" r =>
      let '(d, r1) := read_part "D" r in
      match r1 with
      | String "T" r2 =>
          let '(h, r3) := read_part "H" r2 in
          let '(m, r4) := read_part "M" r3 in
          let '(x, r5) := read_part "S" r4 in
          match r5 with
          | EmptyString => Some (d * 86400 + h * 3600 + m * 60 + x)
          | _ => None
          end
      | _ => None
      end
  | _ => None
  end.
