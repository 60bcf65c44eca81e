(** The texts of numbers and durations in a manifest, read back. *)
From Coq Require Import Lqa.
From Verif Require Import Base BaseProofs StrModel TimeModel TimeSpec TimeProofs MpdModel PlayerSpec.
Local Open Scope string_scope.
Open Scope Z_scope.

Lemma read_PT : forall z, 0 <= z -> read_duration ("PT" ++ print_Z z ++ "S") = Some z.
Proof.
  intros z H. unfold read_duration. cbn [append].
  assert (L : forall c, digit_val c = None -> c <> "S"%char -> lacks c (print_Z z ++ "S") = true).
  { intros c D N. rewrite lacks_app, lacks_print by auto. cbn [lacks]. destruct (Ascii.eqb_spec "S" c); [congruence|reflexivity]. }
  rewrite read_part_miss by (cbn [lacks]; rewrite L by (reflexivity || discriminate); reflexivity).
  rewrite read_part_miss by (apply L; reflexivity || discriminate).
  rewrite read_part_miss by (apply L; reflexivity || discriminate).
  rewrite read_part_hit by (auto; reflexivity). reflexivity.
Qed.

Lemma read_PT_neg : forall y, y < 0 -> read_duration ("PT" ++ print_Z y ++ "S") = Some y.
Proof.
  intros y H. unfold print_Z. replace (y <? 0) with true by lia. replace y with (- (- y)) at 2 by lia.
  set (z := - y) in *. unfold read_duration. cbn [append].
  destruct (print_nat_spec z ltac:(lia)) as (A & B & C).
  assert (L : forall c, digit_val c = None -> c <> "S"%char -> c <> "-"%char -> lacks c (String "-" (print_nat z ++ "S")) = true).
  { intros c D N M. cbn [lacks]. rewrite lacks_app, lacks_digits by auto. cbn [lacks]. destruct (Ascii.eqb_spec "S" c); [congruence|].
    destruct (Ascii.eqb_spec "-" c); [congruence|reflexivity]. }
  rewrite read_part_miss by (cbn [lacks append]; specialize (L "D"%char eq_refl ltac:(discriminate) ltac:(discriminate)); cbn [lacks] in L; rewrite L; reflexivity).
  rewrite read_part_miss by (apply L; reflexivity || discriminate).
  rewrite read_part_miss by (apply L; reflexivity || discriminate).
  assert (E : read_part "S" (String "-" (print_nat z ++ "S")) = (- z, "")).
  { unfold read_part. cbn [split_first]. change (Ascii.eqb "-" "S") with false. cbv iota.
    rewrite split_first_digits by (auto; reflexivity). rewrite py_int_minus by auto. rewrite B. reflexivity. }
  rewrite E. reflexivity.
Qed.

Lemma Qfloor_div : forall a b, 0 < b -> Qfloor (inject_Z a / inject_Z b) = a / b.
Proof.
  intros a b H. apply Qfloor_unique.
  - apply Qle_shift_div_l; [change 0%Q with (inject_Z 0); rewrite <- Zlt_Qlt; exact H|].
    rewrite <- inject_Z_mult, <- Zle_Qle. rewrite Z.mul_comm. apply Z.mul_div_le. exact H.
  - apply Qlt_shift_div_r; [change 0%Q with (inject_Z 0); rewrite <- Zlt_Qlt; exact H|].
    rewrite <- inject_Z_mult, <- Zlt_Qlt. pose proof (Z.mul_succ_div_gt a b H). lia.
Qed.
Lemma Qfloor_eq : forall p q, (p == q)%Q -> Qfloor p = Qfloor q.
Proof. intros. apply Qfloor_comp. assumption. Qed.
Lemma py_int_eq : forall p q, (p == q)%Q -> py_int_of_Q p = py_int_of_Q q.
Proof.
  intros p q E. assert (A : (p <= q)%Q) by (rewrite E; apply Qle_refl). assert (B : (q <= p)%Q) by (rewrite E; apply Qle_refl).
  apply py_int_mono in A. apply py_int_mono in B. lia.
Qed.

Lemma iso_integer : forall m, 0 <= m -> seconds_to_iso_duration_Q (inject_Z m) = seconds_to_iso_duration m.
Proof.
  intros m H. unfold seconds_to_iso_duration_Q, seconds_to_iso_duration. cbv zeta.
  rewrite Qfloor_div by lia.
  assert (E1 : forall a b, 0 < b -> (inject_Z a - inject_Z (a / b * b) == inject_Z (a mod b))%Q).
  { intros a b B. unfold Qminus. rewrite <- inject_Z_opp, <- inject_Z_plus. rewrite Z.mod_eq by lia.
    replace (a + - (a / b * b)) with (a - b * (a / b)) by lia. reflexivity. }
  set (r1 := (inject_Z m - inject_Z (m / 86400 * 86400))%Q).
  assert (R1 : (r1 == inject_Z (m mod 86400))%Q) by (apply E1; lia). clearbody r1.
  rewrite (Qfloor_eq (r1 / inject_Z 3600) (inject_Z (m mod 86400) / inject_Z 3600)) by (rewrite R1; reflexivity).
  rewrite Qfloor_div by lia. set (h := m mod 86400 / 3600) in *.
  set (r2 := (r1 - inject_Z (h * 3600))%Q).
  assert (R2 : (r2 == inject_Z ((m mod 86400) mod 3600))%Q) by (unfold r2; rewrite R1; apply E1; lia). clearbody r2.
  rewrite (Qfloor_eq (r2 / inject_Z 60) (inject_Z ((m mod 86400) mod 3600) / inject_Z 60)) by (rewrite R2; reflexivity).
  rewrite Qfloor_div by lia. set (mi := (m mod 86400) mod 3600 / 60) in *.
  set (r3 := (r2 - inject_Z (mi * 60))%Q).
  assert (R3 : (r3 == inject_Z (((m mod 86400) mod 3600) mod 60))%Q) by (unfold r3; rewrite R2; apply E1; lia). clearbody r3.
  set (s := ((m mod 86400) mod 3600) mod 60) in *.
  assert (EQ : Qltb 0 r3 = (s >? 0)).
  { unfold Qltb. destruct (Qle_bool r3 0) eqn:Q; cbn [negb].
    - apply Qle_bool_iff in Q. rewrite R3 in Q. change 0%Q with (inject_Z 0) in Q. rewrite <- Zle_Qle in Q. lia.
    - assert (~ (r3 <= 0)%Q) by (intros K; apply Qle_bool_iff in K; congruence). rewrite R3 in H0. change 0%Q with (inject_Z 0) in H0. rewrite <- Zle_Qle in H0. lia. }
  rewrite EQ. rewrite (py_int_eq _ _ R3), py_int_of_Q_inject. clearbody h mi s. set (d := m / 86400).
  clear - h mi s d. rewrite !Z.gtb_ltb.
  destruct (0 <? d), (0 <? h), (0 <? mi); repeat (progress (cbn [append]; rewrite ?string_app_assoc)); reflexivity.
Qed.

Lemma len_app : forall a b, String.length (a ++ b) = (String.length a + String.length b)%nat.
Proof. induction a; intros; cbn; [reflexivity|rewrite IHa; reflexivity]. Qed.
(** *** The number text with six decimals *)
Lemma print_len : forall j n, 0 <= n < 10 ^ Z.of_nat (S j) -> (String.length (print_nat n) <= S j)%nat.
Proof.
  assert (G : forall j f n, 0 <= n < 10 ^ Z.of_nat (S j) -> (String.length (print_pos_fuel f n "") <= S j)%nat).
  { induction j; intros f n H; (destruct f as [|f]; [cbn; lia|]); cbn [print_pos_fuel].
    - change (10 ^ Z.of_nat 1) with 10 in H. rewrite Z.div_small by lia. cbn. lia.
    - destruct (Z.eqb_spec (n / 10) 0); [cbn; lia|]. rewrite print_pos_fuel_acc, len_app.
      assert (0 <= n / 10 < 10 ^ Z.of_nat (S j)).
      { rewrite (Nat2Z.inj_succ (S j)), Z.pow_succ_r in H by lia. split; [apply Z.div_pos; lia|apply Z.div_lt_upper_bound; lia]. }
      specialize (IHj f _ H0). cbn [String.length]. lia. }
  intros j n H. apply G. exact H.
Qed.

Lemma micro_exact : forall a m, (a == inject_Z m / inject_Z 1000000)%Q -> micro a = m.
Proof.
  intros a m E. unfold micro, py_round.
  assert (E2 : (a * inject_Z 1000000 == inject_Z m)%Q) by (rewrite E; field; discriminate).
  set (q := (a * inject_Z 1000000)%Q) in *. clearbody q.
  assert (F : Qfloor q = m) by (rewrite (Qfloor_eq _ _ E2); apply Qfloor_Z). rewrite F.
  assert (R : (q - inject_Z m == 0)%Q) by (rewrite E2; ring).
  assert (B : Qltb (q - inject_Z m) (1 # 2) = true).
  { unfold Qltb. destruct (Qle_bool (1 # 2) (q - inject_Z m)) eqn:K; [|reflexivity]. apply Qle_bool_iff in K. lra. }
  rewrite B. reflexivity.
Qed.
Lemma pad6_spec : forall k, 0 <= k < 1000000 -> py_int (pad6 k) = Ok k /\ String.length (pad6 k) = 6%nat.
Proof.
  intros k H. unfold pad6. replace (print_Z k) with (print_nat k) by (unfold print_Z; destruct (Z.ltb_spec k 0); [lia|reflexivity]).
  destruct (print_nat_spec k ltac:(lia)) as (A & B & C).
  pose proof (print_len 5 k ltac:(cbn; lia)) as L. set (s := print_nat k) in *. clearbody s.
  assert (D : exists z, drop (String.length s) "000000" = z /\ all_digits z = true /\ digits_val z 0 = 0 /\ (String.length z + String.length s = 6)%nat).
  { destruct (String.length s) as [|[|[|[|[|[|[|]]]]]]]; try lia; eexists; (split; [reflexivity|]); cbn; auto. }
  destruct D as (z & -> & D1 & D2 & D3). split; [|rewrite len_app; exact D3].
  rewrite py_int_digits.
  - rewrite digits_val_app by exact D1. rewrite D2, B. reflexivity.
  - rewrite all_digits_app, D1, A. reflexivity.
  - destruct z; cbn; [exact C|discriminate].
Qed.
Lemma read_print_f : forall a m, 0 <= m -> (a == inject_Z m / inject_Z 1000000)%Q ->
  exists q, read_decimal (print_f a) = Some q /\ (q == a)%Q.
Proof.
  intros a m H E. unfold print_f, read_decimal. rewrite (micro_exact a m E).
  replace (m <? 0) with false by lia. rewrite Z.abs_eq by exact H. cbn [append].
  assert (P : 0 <= m / 1000000) by (apply Z.div_pos; lia). assert (M := Z.mod_pos_bound m 1000000 ltac:(lia)).
  destruct (print_Z_digits _ P) as (A & _ & _). rewrite split_first_digits by (auto; reflexivity).
  rewrite py_int_print. destruct (pad6_spec _ M) as (-> & ->). eexists. split; [reflexivity|].
  rewrite E. change (10 ^ Z.of_nat 6) with 1000000. rewrite (Z.div_mod m 1000000) at 3 by lia.
  rewrite inject_Z_plus, inject_Z_mult. field.
Qed.
