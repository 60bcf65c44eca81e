(** Lemmas about durations and timestamps. *)
From Verif Require Import Base BaseProofs TimeModel TimeSpec.
From Coq Require Import ZifyBool.
Open Scope Z_scope.

Lemma print_Z_nonneg : forall n, 0 <= n -> print_Z n = print_nat n.
Proof. intros. unfold print_Z. destruct (Z.ltb_spec n 0); [lia|reflexivity]. Qed.

Lemma print_Z_digits : forall n, 0 <= n ->
  all_digits (print_Z n) = true /\ digits_val (print_Z n) 0 = n /\ print_Z n <> EmptyString.
Proof. intros. rewrite print_Z_nonneg by auto. apply print_nat_spec; auto. Qed.

Lemma split_first_digits : forall ds c r, all_digits ds = true -> digit_val c = None ->
  split_first c (ds ++ String c r) = Some (ds, r).
Proof.
  induction ds; intros c r H K; simpl in *.
  - rewrite Ascii.eqb_refl. reflexivity.
  - destruct (digit_val a) eqn:E; [|discriminate].
    destruct (Ascii.eqb_spec a c); [congruence|]. rewrite IHds by auto. reflexivity.
Qed.

Lemma take_digits_app : forall ds rest acc n, all_digits ds = true ->
  match rest with String c _ => digit_val c = None | _ => True end ->
  take_digits (ds ++ rest) acc n = (digits_val ds acc, (n + String.length ds)%nat, rest).
Proof.
  induction ds; intros rest acc n H K; simpl in *.
  - rewrite Nat.add_0_r. destruct rest; simpl; auto. rewrite K. reflexivity.
  - destruct (digit_val a) eqn:E; [|discriminate]. rewrite IHds by auto.
    rewrite Nat.add_succ_r. reflexivity.
Qed.

Lemma opt_field_hit : forall n c r, 0 <= n -> digit_val c = None ->
  opt_field c (print_Z n ++ String c r) = (Some n, r).
Proof.
  intros n c r H K. destruct (print_Z_digits n H) as (A & B & C).
  unfold opt_field. rewrite take_digits_app by auto. rewrite B.
  destruct (print_Z n); [congruence|]. simpl. rewrite Ascii.eqb_refl. reflexivity.
Qed.

Lemma opt_field_miss : forall n c c' r, 0 <= n -> digit_val c' = None -> c <> c' ->
  opt_field c (print_Z n ++ String c' r) = (None, (print_Z n ++ String c' r)%string).
Proof.
  intros n c c' r H K N. destruct (print_Z_digits n H) as (A & B & C).
  unfold opt_field. rewrite take_digits_app by auto. rewrite B.
  destruct (print_Z n); [congruence|]. simpl.
  destruct (Ascii.eqb_spec c' c); [congruence|reflexivity].
Qed.

(** The text after the "T". *)
Definition tail_text (h m s : Z) : string :=
  ((if h >? 0 then print_Z h ++ "H" else "") ++
   (if m >? 0 then print_Z m ++ "M" else "") ++
   (if s >? 0 then print_Z s ++ "S" else ""))%string.

Lemma app_inv_nil : forall a b : string, (a ++ b)%string = EmptyString -> a = EmptyString /\ b = EmptyString.
Proof. destruct a; simpl; intros; auto. discriminate. Qed.

Lemma iso_text : forall n, 0 <= n ->
  seconds_to_iso_duration n =
  if n =? 0 then "PT0S"%string else
  ("P" ++ (if n / 86400 >? 0 then print_Z (n / 86400) ++ "D" else "") ++ "T" ++
   tail_text (n mod 86400 / 3600) (n mod 86400 mod 3600 / 60) (n mod 86400 mod 3600 mod 60))%string.
Proof.
  intros n H. unfold seconds_to_iso_duration, tail_text.
  assert (H1 := Z.div_mod n 86400 ltac:(lia)).
  assert (H2 := Z.mod_pos_bound n 86400 ltac:(lia)).
  assert (H0 : 0 <= n / 86400) by (apply Z.div_pos; lia).
  set (d := n / 86400) in *. set (r := n mod 86400) in *. clearbody d r.
  assert (H3 := Z.div_mod r 3600 ltac:(lia)).
  assert (H4 := Z.mod_pos_bound r 3600 ltac:(lia)).
  assert (H5 : 0 <= r / 3600) by (apply Z.div_pos; lia).
  set (h := r / 3600) in *. set (q := r mod 3600) in *. clearbody h q.
  assert (H6 := Z.div_mod q 60 ltac:(lia)).
  assert (H7 := Z.mod_pos_bound q 60 ltac:(lia)).
  assert (H8 : 0 <= q / 60) by (apply Z.div_pos; lia).
  set (m := q / 60) in *. set (s := q mod 60) in *. clearbody m s.
  destruct (Z.gtb_spec d 0).
  { destruct (Z.eqb_spec n 0); [lia|].
    assert (P := print_Z_digits d ltac:(lia)). destruct P as (A & _ & C).
    assert (X : forall t, String.eqb ("P" ++ print_Z d ++ "D" ++ t) "PT" = false).
    { intros t. destruct (print_Z d) as [|c u]; [congruence|]. simpl in A.
      simpl. destruct (Ascii.eqb_spec c "T"); [subst; discriminate|reflexivity]. }
    destruct (Z.gtb_spec h 0), (Z.gtb_spec m 0), (Z.gtb_spec s 0);
      rewrite ?orb_true_l, ?orb_false_l, ?string_app_assoc, ?X; simpl; reflexivity. }
  destruct (Z.gtb_spec h 0), (Z.gtb_spec m 0), (Z.gtb_spec s 0);
    (destruct (Z.eqb_spec n 0); [try lia|]);
    rewrite ?orb_true_l, ?orb_false_l, ?string_app_assoc; simpl; try lia; try reflexivity;
    try match goal with
      |- context [String.eqb ?x ""] =>
        let Z := fresh in assert (Z : String.eqb x "" = false);
        [apply String.eqb_neq; intros Z'; apply app_inv_nil in Z'; destruct Z' as [Z' Z''];
         try discriminate; apply app_inv_nil in Z''; destruct Z''; discriminate|rewrite Z]
    end; rewrite ?string_app_assoc; simpl; try reflexivity.
  replace s with 0 by lia. reflexivity.
Qed.

Lemma parse_tail : forall h m s, 0 <= h -> 0 <= m -> 0 <= s ->
  iso_duration_to_seconds ("PT" ++ tail_text h m s) = Ok (h * 3600 + m * 60 + s).
Proof.
  intros h m s Hh Hm Hs. unfold tail_text. simpl.
  destruct (Z.gtb_spec h 0), (Z.gtb_spec m 0), (Z.gtb_spec s 0);
    rewrite ?string_app_assoc; cbn [append];
    repeat (first [rewrite opt_field_hit by (auto; lia)
                  |rewrite opt_field_miss by (auto; try discriminate; lia)]; cbn [append]);
    cbn; f_equal; lia.
Qed.

Lemma iso_round_trip : forall n, 0 <= n < 86400 ->
  iso_duration_to_seconds (seconds_to_iso_duration n) = Ok n.
Proof.
  intros n H. rewrite iso_text by lia. destruct (Z.eqb_spec n 0); [subst; reflexivity|].
  rewrite (Z.div_small n 86400), (Z.mod_small n 86400) by lia.
  change (if 0 >? 0 then (print_Z 0 ++ "D")%string else ""%string) with ""%string.
  change ("P" ++ "" ++ "T" ++ tail_text (n / 3600) (n mod 3600 / 60) (n mod 3600 mod 60))%string
    with ("PT" ++ tail_text (n / 3600) (n mod 3600 / 60) (n mod 3600 mod 60))%string.
  assert (H3 := Z.div_mod n 3600 ltac:(lia)).
  assert (H4 := Z.mod_pos_bound n 3600 ltac:(lia)).
  assert (H6 := Z.div_mod (n mod 3600) 60 ltac:(lia)).
  assert (H7 := Z.mod_pos_bound (n mod 3600) 60 ltac:(lia)).
  rewrite parse_tail; try (apply Z.div_pos; lia); try lia. f_equal. lia.
Qed.

Lemma read_part_hit : forall n c r, 0 <= n -> digit_val c = None ->
  read_part c (print_Z n ++ String c r) = (n, r).
Proof.
  intros n c r H K. destruct (print_Z_digits n H) as (A & B & C).
  unfold read_part. rewrite split_first_digits by auto.
  rewrite py_int_print. reflexivity.
Qed.

(** texts without a given letter *)
Fixpoint lacks (c : ascii) (s : string) : bool :=
  match s with
  | EmptyString => true
  | String x t => negb (Ascii.eqb x c) && lacks c t
  end.
Lemma lacks_app : forall c a b, lacks c (a ++ b) = lacks c a && lacks c b.
Proof. induction a; simpl; intros; auto. rewrite IHa, andb_assoc. reflexivity. Qed.
Lemma split_first_lacks : forall c s, lacks c s = true -> split_first c s = None.
Proof.
  induction s; simpl; intros H; auto. apply andb_prop in H. destruct H as [H1 H2].
  destruct (Ascii.eqb a c); [discriminate|]. rewrite IHs by auto. reflexivity.
Qed.
Lemma lacks_digits : forall c s, digit_val c = None -> all_digits s = true -> lacks c s = true.
Proof.
  induction s; simpl; intros K H; auto. destruct (digit_val a) eqn:E; [|discriminate].
  rewrite IHs by auto. destruct (Ascii.eqb_spec a c); [congruence|reflexivity].
Qed.
Lemma lacks_print : forall c n, digit_val c = None -> 0 <= n -> lacks c (print_Z n) = true.
Proof. intros. apply lacks_digits; auto. apply print_Z_digits; auto. Qed.
Lemma read_part_miss : forall c s, lacks c s = true -> read_part c s = (0, s).
Proof. intros. unfold read_part. rewrite split_first_lacks; auto. Qed.

Lemma read_tail : forall h m s, 0 <= h -> 0 <= m -> 0 <= s ->
  let '(a, r3) := read_part "H" (tail_text h m s) in
  let '(b, r4) := read_part "M" r3 in
  read_part "S" r4 = (s, EmptyString) /\ a = h /\ b = m.
Proof.
  intros h m s Hh Hm Hs. unfold tail_text.
  destruct (Z.gtb_spec h 0), (Z.gtb_spec m 0), (Z.gtb_spec s 0);
    rewrite ?string_app_assoc; cbn [append];
    repeat (first [rewrite read_part_hit by (auto; lia)
                  |rewrite read_part_miss
                    by (repeat (rewrite ?lacks_app; cbn [lacks append]); rewrite ?lacks_print by (auto; lia);
                        reflexivity)]; cbn [append]);
    repeat split; try lia; try (f_equal; lia).
Qed.

Lemma lacks_tail : forall c h m s, digit_val c = None -> c <> "H"%char -> c <> "M"%char ->
  c <> "S"%char -> lacks c (tail_text h m s) = true.
Proof.
  intros c h m s K N1 N2 N3. unfold tail_text. rewrite !lacks_app.
  assert (P : forall x l, (l = "H" \/ l = "M" \/ l = "S")%char ->
              lacks c (if x >? 0 then print_Z x ++ String l "" else "") = true).
  { intros x l L. destruct (Z.gtb_spec x 0); [|reflexivity].
    rewrite lacks_app, lacks_print by (auto; lia). cbn.
    destruct (Ascii.eqb_spec l c); [|reflexivity]. subst. intuition congruence. }
  rewrite !P by auto. reflexivity.
Qed.

Lemma iso_value : forall n, 0 <= n -> read_duration (seconds_to_iso_duration n) = Some n.
Proof.
  intros n H. rewrite iso_text by auto. destruct (Z.eqb_spec n 0); [subst; reflexivity|].
  assert (H1 := Z.div_mod n 86400 ltac:(lia)).
  assert (H2 := Z.mod_pos_bound n 86400 ltac:(lia)).
  assert (H0 : 0 <= n / 86400) by (apply Z.div_pos; lia).
  set (d := n / 86400) in *. set (r := n mod 86400) in *. clearbody d r.
  assert (H3 := Z.div_mod r 3600 ltac:(lia)).
  assert (H4 := Z.mod_pos_bound r 3600 ltac:(lia)).
  assert (H5 : 0 <= r / 3600) by (apply Z.div_pos; lia).
  set (h := r / 3600) in *. set (q := r mod 3600) in *. clearbody h q.
  assert (H6 := Z.div_mod q 60 ltac:(lia)).
  assert (H7 := Z.mod_pos_bound q 60 ltac:(lia)).
  assert (H8 : 0 <= q / 60) by (apply Z.div_pos; lia).
  set (m := q / 60) in *. set (s := q mod 60) in *. clearbody m s.
  unfold read_duration. cbn [append].
  assert (X : read_part "D" ((if d >? 0 then print_Z d ++ "D" else "") ++ String "T" (tail_text h m s))
              = (d, String "T" (tail_text h m s))).
  { destruct (Z.gtb_spec d 0).
    - rewrite string_app_assoc. cbn [append]. apply read_part_hit; auto.
    - cbn [append]. rewrite read_part_miss; [f_equal; lia|].
      cbn [lacks]. rewrite lacks_tail by (auto; discriminate). reflexivity. }
  rewrite X. assert (R := read_tail h m s ltac:(lia) ltac:(lia) ltac:(lia)).
  destruct (read_part "H" (tail_text h m s)) as [a r3].
  destruct (read_part "M" r3) as [b r4]. destruct R as (R & -> & ->). rewrite R.
  f_equal. lia.
Qed.

(** ** Calendar *)

(** number of leap years in 1..y *)
Definition leaps (y : Z) : Z := y / 4 - y / 100 + y / 400.

Lemma mod_of_div : forall y k, 0 < k -> y mod k = y - k * (y / k).
Proof. intros. rewrite Z.mod_eq by lia. lia. Qed.

Lemma leaps_step : forall y, leaps y = leaps (y - 1) + (if leap y then 1 else 0).
Proof.
  intros y. unfold leaps, leap.
  destruct (Z.eqb_spec (y mod 4) 0), (Z.eqb_spec (y mod 100) 0), (Z.eqb_spec (y mod 400) 0); cbn;
    Z.to_euclidean_division_equations; lia.
Qed.

Lemma days_to_year_eq : forall n,
  days_to_year n = 365 * Z.of_nat n + leaps (1969 + Z.of_nat n) - 477.
Proof.
  induction n; [reflexivity|]. cbn [days_to_year]. rewrite IHn. unfold year_days.
  rewrite Nat2Z.inj_succ.
  replace (1969 + Z.succ (Z.of_nat n)) with (1970 + Z.of_nat n) by lia.
  rewrite (leaps_step (1970 + Z.of_nat n)).
  replace (1970 + Z.of_nat n - 1) with (1969 + Z.of_nat n) by lia.
  destruct (leap _); lia.
Qed.

(** the date part of gmtime for a day number counted from 0000-03-01 *)
Definition date_of (z : Z) : Z * Z * Z :=
  let era := z / 146097 in
  let doe := z mod 146097 in
  let yoe := (doe - doe / 1460 + doe / 36524 - doe / 146096) / 365 in
  let doy := doe - (365 * yoe + yoe / 4 - yoe / 100) in
  let mp := (5 * doy + 2) / 153 in
  let d := doy - (153 * mp + 2) / 5 + 1 in
  let m := if mp <? 10 then mp + 3 else mp - 9 in
  (yoe + era * 400 + (if m <=? 2 then 1 else 0), m, d).

Definition date_ok (z : Z) : bool :=
  let '(y, m, d) := date_of z in
  (0 <=? y) && (1 <=? m) && (m <=? 12) && (1 <=? d) && (d <=? month_days (leap y) m) &&
  (365 * (y - 1970) + leaps (y - 1) - 477 + days_to_month (leap y) (Z.to_nat (m - 1)) + (d - 1) =? z - 719468).

Fixpoint all_ok (n : nat) (z : Z) : bool :=
  match n with O => true | S k => date_ok z && all_ok k (z + 1) end.

Lemma all_ok_spec : forall n z, all_ok n z = true ->
  forall x, z <= x < z + Z.of_nat n -> date_ok x = true.
Proof.
  induction n; intros z H x Hx; [lia|]. simpl in H. apply andb_prop in H. destruct H as [A B].
  destruct (Z.eq_dec x z); [subst; auto|]. apply (IHn (z + 1)); auto. lia.
Qed.

(** One 400-year cycle, all 146097 days of it. *)
Lemma cycle_ok : forall x, 0 <= x < 146097 -> date_ok x = true.
Proof.
  intros x H. apply (all_ok_spec (Z.to_nat 146097) 0); [vm_compute; reflexivity|].
  rewrite Z2Nat.id by lia. lia.
Qed.

Lemma leap_period : forall y e, leap (y + e * 400) = leap y.
Proof.
  intros y e. unfold leap.
  assert (A : (y + e * 400) mod 4 = y mod 4)
    by (replace (y + e * 400) with (y + (e * 100) * 4) by lia; apply Z.mod_add; lia).
  assert (B : (y + e * 400) mod 100 = y mod 100)
    by (replace (y + e * 400) with (y + (e * 4) * 100) by lia; apply Z.mod_add; lia).
  rewrite A, B, Z.mod_add by lia. reflexivity.
Qed.
Lemma leaps_period : forall y e, leaps (y + e * 400) = leaps y + e * 97.
Proof.
  intros. unfold leaps.
  assert (A : (y + e * 400) / 4 = y / 4 + e * 100)
    by (replace (y + e * 400) with (y + (e * 100) * 4) by lia; apply Z.div_add; lia).
  assert (B : (y + e * 400) / 100 = y / 100 + e * 4)
    by (replace (y + e * 400) with (y + (e * 4) * 100) by lia; apply Z.div_add; lia).
  rewrite A, B, Z.div_add by lia. lia.
Qed.

Lemma month_bound : forall y m d, 1 <= m <= 12 -> 1 <= d <= month_days (leap y) m ->
  0 <= days_to_month (leap y) (Z.to_nat (m - 1)) + (d - 1) < year_days y.
Proof.
  intros y m d H K. unfold year_days.
  assert (S : m = 1 \/ m = 2 \/ m = 3 \/ m = 4 \/ m = 5 \/ m = 6 \/ m = 7 \/ m = 8 \/ m = 9
               \/ m = 10 \/ m = 11 \/ m = 12) by lia.
  destruct S as [S|[S|[S|[S|[S|[S|[S|[S|[S|[S|[S|S]]]]]]]]]]]; subst m; destruct (leap y);
    remember (days_to_month _ _) as q eqn:Q; remember (month_days _ _) as r eqn:R;
    vm_compute in Q, R; lia.
Qed.

Lemma date_of_spec : forall z, 719468 <= z ->
  let '(y, m, d) := date_of z in
  1970 <= y /\ 1 <= m <= 12 /\ 1 <= d <= month_days (leap y) m /\
  days_to_year (Z.to_nat (y - 1970)) + days_to_month (leap y) (Z.to_nat (m - 1)) + (d - 1) = z - 719468.
Proof.
  intros z Hz.
  assert (HB := Z.mod_pos_bound z 146097 ltac:(lia)).
  assert (HE := Z.div_mod z 146097 ltac:(lia)).
  assert (K := cycle_ok (z mod 146097) HB). unfold date_ok in K.
  assert (E0 : date_of z = let '(y, m, d) := date_of (z mod 146097) in
                           (y + (z / 146097) * 400, m, d)).
  { unfold date_of. rewrite Z.mod_mod by lia.
    rewrite (Z.div_small (z mod 146097) 146097) by lia. f_equal. f_equal. lia. }
  rewrite E0. destruct (date_of (z mod 146097)) as [[y m] d].
  rewrite leap_period.
  assert (B : 0 <= y /\ 1 <= m /\ m <= 12 /\ 1 <= d /\ d <= month_days (leap y) m) by lia.
  assert (C : 365 * (y - 1970) + leaps (y - 1) - 477 + days_to_month (leap y) (Z.to_nat (m - 1)) + (d - 1)
              = z mod 146097 - 719468) by lia.
  clear K. set (e := z / 146097) in *.
  assert (D : 365 * (y + e * 400 - 1970) + leaps (y + e * 400 - 1) - 477
              + days_to_month (leap y) (Z.to_nat (m - 1)) + (d - 1) = z - 719468).
  { replace (y + e * 400 - 1) with ((y - 1) + e * 400) by lia. rewrite leaps_period. lia. }
  assert (MBX : leap y = true \/ leap y = false) by (destruct (leap y); auto).
  assert (MB := month_bound y m d ltac:(lia) ltac:(lia)). unfold year_days in MB.
  assert (Y : 1970 <= y + e * 400).
  { assert (L : forall a, 0 <= a <= 1969 -> 365 * (a - 1970) + leaps (a - 1) - 477 + 366 <= 1).
    { intros a Ha. unfold leaps. Z.to_euclidean_division_equations. lia. }
    destruct (Z_lt_dec (y + e * 400) 1970) as [N|N]; [|lia]. exfalso.
    assert (e >= 0) by lia.
    assert (Q : 0 <= y + e * 400) by lia.
    assert (W : 365 * (y + e * 400 - 1970) + leaps (y + e * 400 - 1) - 477 >= -366 ->
                y + e * 400 = 1969).
    { intros W. unfold leaps in W. Z.to_euclidean_division_equations. lia. }
    destruct (Z.eq_dec (y + e * 400) 1969) as [N9|N9]; [|apply N9, W; lia].
    assert (NL : leap y = false).
    { rewrite <- (leap_period y e). rewrite N9. reflexivity. }
    rewrite NL in MB.
    rewrite N9 in D. change (leaps (1969 - 1)) with (leaps 1968) in D.
    change (leaps 1968) with 477 in D. lia. }
  split; [exact Y|]. split; [lia|]. split; [lia|].
  rewrite days_to_year_eq. rewrite Z2Nat.id by lia.
  replace (1969 + (y + e * 400 - 1970)) with (y + e * 400 - 1) by lia. lia.
Qed.

Lemma print_02d_digits : forall n, 0 <= n ->
  all_digits (print_02d n) = true /\ py_int (print_02d n) = Ok n.
Proof.
  intros n H. destruct (print_Z_digits n H) as (A & B & C).
  unfold print_02d. destruct ((0 <=? n) && (n <? 10)) eqn:E.
  - split; [simpl; auto|]. rewrite py_int_digits; [|simpl; auto|discriminate].
    simpl. rewrite B. reflexivity.
  - split; auto. apply py_int_print.
Qed.

Lemma read_strftime : forall y m d h mi s, 0 <= y -> 0 <= m -> 0 <= d -> 0 <= h -> 0 <= mi -> 0 <= s ->
  read_timestamp (strftime_utc (mk_civil y m d h mi s)) = Some (y, m, d, h, mi, s).
Proof.
  intros. unfold read_timestamp, strftime_utc. cbn [cy cmo cd chh cmi css].
  destruct (print_Z_digits y) as (A & _ & _); auto.
  destruct (print_02d_digits m) as (A1 & B1); auto.
  destruct (print_02d_digits d) as (A2 & B2); auto.
  destruct (print_02d_digits h) as (A3 & B3); auto.
  destruct (print_02d_digits mi) as (A4 & B4); auto.
  destruct (print_02d_digits s) as (A5 & B5); auto.
  cbn [append]. rewrite !split_first_digits by auto.
  rewrite py_int_print, B1, B2, B3, B4, B5. reflexivity.
Qed.
