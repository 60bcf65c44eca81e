(** C31, C32: ISO durations and UTC timestamps. *)
From Verif Require Import Base BaseProofs TimeModel TimeSpec TimeProofs.
Open Scope Z_scope.

(** A number of seconds below one day, written and parsed back by the code. *)
Lemma C31_round_trip_pf : forall n, 0 <= n < 86400 ->
  iso_duration_to_seconds (seconds_to_iso_duration n) = Ok n.
Proof. exact iso_round_trip. Qed.
Example C31_ex1 : seconds_to_iso_duration 3675 = "PT1H1M15S"%string
  /\ iso_duration_to_seconds "PT1H1M15S" = Ok 3675 /\ seconds_to_iso_duration 0 = "PT0S"%string.
Proof. vm_compute. auto. Qed.

(** The written text, read by an independent reader that knows the day field,
    denotes the number of seconds, for every non-negative number. *)
Lemma C31_denotes_pf : forall n, 0 <= n -> read_duration (seconds_to_iso_duration n) = Some n.
Proof. exact iso_value. Qed.
Example C31_ex2 : read_duration (seconds_to_iso_duration 266461) = Some 266461
  /\ seconds_to_iso_duration 266461 = "P3DT2H1M1S"%string.
Proof. vm_compute. auto. Qed.

Lemma C31_injective_pf : forall a b, 0 <= a -> 0 <= b ->
  seconds_to_iso_duration a = seconds_to_iso_duration b -> a = b.
Proof.
  intros a b Ha Hb H. assert (K : Some a = Some b) by (rewrite <- !iso_value, H; auto).
  congruence.
Qed.
Example C31_ex3 : seconds_to_iso_duration 60 <> seconds_to_iso_duration 3600.
Proof. vm_compute. discriminate. Qed.

(** Finding: from one day upwards the code's own parser rejects the text. *)
Lemma C31_day_refuted_pf : exists n, 86400 <= n /\
  iso_duration_to_seconds (seconds_to_iso_duration n) = Err "TimeFormatConversionError" /\
  seconds_to_iso_duration n = "P1DT"%string.
Proof. exists 86400. vm_compute. repeat split; congruence. Qed.
(** ... and this holds for all of them, not only for the witness. *)
Lemma C31_day_rejected_pf : forall n, 86400 <= n ->
  iso_duration_to_seconds (seconds_to_iso_duration n) = Err "TimeFormatConversionError".
Proof.
  intros n H. rewrite iso_text by lia. destruct (Z.eqb_spec n 0); [lia|].
  assert (D : 1 <= n / 86400) by (apply Z.div_le_lower_bound; lia).
  destruct (Z.gtb_spec (n / 86400) 0); [|lia].
  destruct (print_Z_digits (n / 86400)) as (A & _ & C); [lia|].
  destruct (print_Z (n / 86400)) as [|c t]; [congruence|]. cbn in A.
  cbn [append]. unfold iso_duration_to_seconds. cbn [append].
  destruct c as [[] [] [] [] [] [] [] []]; try reflexivity; discriminate.
Qed.
Example C31_ex4 : iso_duration_to_seconds (seconds_to_iso_duration 90000) = Err "TimeFormatConversionError".
Proof. reflexivity. Qed.

(** Finding: a legal duration with a fraction is silently read as 0 seconds. *)
Lemma C31_fraction_refuted_pf : exists s, s = "PT596.458S"%string /\ iso_duration_to_seconds s = Ok 0.
Proof. eexists. split; reflexivity. Qed.

(** The timestamp text denotes the instant: it reads as a valid calendar date
    and time of day, and counting days from 1970-01-01 gives back [t]. *)
Lemma C32_calendar_pf : forall t, 0 <= t ->
  exists y m d hh mi ss,
    read_timestamp (make_timestamp t) = Some (y, m, d, hh, mi, ss) /\
    valid_reading y m d hh mi ss /\ instant y m d hh mi ss = t.
Proof.
  intros t H.
  assert (Hd : 719468 <= t / 86400 + 719468) by (assert (0 <= t / 86400) by (apply Z.div_pos; lia); lia).
  assert (K := date_of_spec _ Hd).
  destruct (date_of (t / 86400 + 719468)) as [[y m] d] eqn:E.
  set (hh := t mod 86400 / 3600). set (mi := t mod 86400 mod 3600 / 60).
  set (ss := t mod 86400 mod 60).
  assert (G : gmtime t = mk_civil y m d hh mi ss).
  { change (gmtime t) with (let '(y, m, d) := date_of (t / 86400 + 719468) in
                            mk_civil y m d hh mi ss). rewrite E. reflexivity. }
  exists y, m, d, hh, mi, ss. destruct K as (K1 & K2 & K3 & K4).
  assert (B := Z.mod_pos_bound t 86400 ltac:(lia)).
  assert (R : 0 <= hh < 24 /\ 0 <= mi < 60 /\ 0 <= ss < 60 /\
              hh * 3600 + mi * 60 + ss = t mod 86400).
  { unfold hh, mi, ss. clear -B. set (r := t mod 86400) in *. clearbody r.
    Z.to_euclidean_division_equations. lia. }
  clearbody hh mi ss. destruct R as (R1 & R2 & R3 & R4).
  split; [|split].
  - unfold make_timestamp. rewrite G. apply read_strftime; lia.
  - unfold valid_reading. lia.
  - unfold instant. assert (DM := Z.div_mod t 86400 ltac:(lia)). lia.
Qed.
Example C32_ex1 : make_timestamp 951827696 = "2000-02-29T12:34:56Z"%string
  /\ make_timestamp 0 = "1970-01-01T00:00:00Z"%string
  /\ instant 2000 2 29 12 34 56 = 951827696
  /\ make_timestamp_Q (3 # 2) = "1970-01-01T00:00:01Z"%string.
Proof. vm_compute. auto. Qed.

Lemma C32_injective_pf : forall a b, 0 <= a -> 0 <= b ->
  make_timestamp a = make_timestamp b -> a = b.
Proof.
  intros a b Ha Hb H.
  destruct (C32_calendar_pf a Ha) as (y & m & d & hh & mi & ss & R & _ & I).
  destruct (C32_calendar_pf b Hb) as (y' & m' & d' & hh' & mi' & ss' & R' & _ & I').
  rewrite H in R. rewrite R in R'. injection R'; intros; subst. reflexivity.
Qed.
Example C32_ex2 : make_timestamp 1000 <> make_timestamp 1001.
Proof. vm_compute. discriminate. Qed.
