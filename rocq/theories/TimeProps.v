(** Property theorems; proofs in TimeTheory.v, where the examples that meet the
    hypotheses stand beside each lemma. Generated by tools/gen_props.py. *)
From Verif Require Import Base BaseProofs TimeModel TimeSpec TimeProofs.
From Verif Require Import TimeTheory.
Open Scope Z_scope.

(** A number of seconds below one day, written and parsed back by the code. *)
Theorem C31_round_trip : forall n, 0 <= n < 86400 ->
  iso_duration_to_seconds (seconds_to_iso_duration n) = Ok n.
Proof. exact C31_round_trip_pf. Qed.
(* examples meeting the hypotheses: C31_ex1 *)
Print Assumptions C31_round_trip.

(** The written text, read by an independent reader that knows the day field,
    denotes the number of seconds, for every non-negative number. *)
Theorem C31_denotes : forall n, 0 <= n -> read_duration (seconds_to_iso_duration n) = Some n.
Proof. exact C31_denotes_pf. Qed.
(* examples meeting the hypotheses: C31_ex2 *)
Print Assumptions C31_denotes.

Theorem C31_injective : forall a b, 0 <= a -> 0 <= b ->
  seconds_to_iso_duration a = seconds_to_iso_duration b -> a = b.
Proof. exact C31_injective_pf. Qed.
(* examples meeting the hypotheses: C31_ex3 *)
Print Assumptions C31_injective.

(** Finding: from one day upwards the code's own parser rejects the text. *)
Theorem C31_day_refuted : exists n, 86400 <= n /\
  iso_duration_to_seconds (seconds_to_iso_duration n) = Err "TimeFormatConversionError" /\
  seconds_to_iso_duration n = "P1DT"%string.
Proof. exact C31_day_refuted_pf. Qed.
Print Assumptions C31_day_refuted.

(** ... and this holds for all of them, not only for the witness. *)
Theorem C31_day_rejected : forall n, 86400 <= n ->
  iso_duration_to_seconds (seconds_to_iso_duration n) = Err "TimeFormatConversionError".
Proof. exact C31_day_rejected_pf. Qed.
(* examples meeting the hypotheses: C31_ex4 *)
Print Assumptions C31_day_rejected.

(** Finding: a legal duration with a fraction is silently read as 0 seconds. *)
Theorem C31_fraction_refuted : exists s, s = "PT596.458S"%string /\ iso_duration_to_seconds s = Ok 0.
Proof. exact C31_fraction_refuted_pf. Qed.
Print Assumptions C31_fraction_refuted.

(** The timestamp text denotes the instant: it reads as a valid calendar date
    and time of day, and counting days from 1970-01-01 gives back [t]. *)
Theorem C32_calendar : forall t, 0 <= t ->
  exists y m d hh mi ss,
    read_timestamp (make_timestamp t) = Some (y, m, d, hh, mi, ss) /\
    valid_reading y m d hh mi ss /\ instant y m d hh mi ss = t.
Proof. exact C32_calendar_pf. Qed.
(* examples meeting the hypotheses: C32_ex1 *)
Print Assumptions C32_calendar.

Theorem C32_injective : forall a b, 0 <= a -> 0 <= b ->
  make_timestamp a = make_timestamp b -> a = b.
Proof. exact C32_injective_pf. Qed.
(* examples meeting the hypotheses: C32_ex2 *)
Print Assumptions C32_injective.
