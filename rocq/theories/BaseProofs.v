(** Lemmas about the primitives of Base.v. *)
From Coq Require Import Lqa ZifyBool ZifyNat.
From Verif Require Import Base.
Open Scope Z_scope.

Lemma Qltb_true : forall a b, Qltb a b = true <-> (a < b)%Q.
Proof.
  intros a b. unfold Qltb. rewrite negb_true_iff. split.
  - intros H. apply Qnot_le_lt. intros L. apply Qle_bool_iff in L. congruence.
  - intros H. destruct (Qle_bool b a) eqn:E; [|reflexivity].
    apply Qle_bool_iff in E. lra.
Qed.

Lemma Qltb_false : forall a b, Qltb a b = false <-> (b <= a)%Q.
Proof.
  intros a b. unfold Qltb. rewrite negb_false_iff. apply Qle_bool_iff.
Qed.

Lemma Qleb_true : forall a b, Qleb a b = true <-> (a <= b)%Q.
Proof. intros. apply Qle_bool_iff. Qed.

Lemma Qleb_false : forall a b, Qleb a b = false <-> (b < a)%Q.
Proof.
  intros a b. unfold Qleb. split.
  - intros H. apply Qnot_le_lt. intros L. apply Qle_bool_iff in L. congruence.
  - intros H. destruct (Qle_bool a b) eqn:E; [|reflexivity].
    apply Qle_bool_iff in E. lra.
Qed.

Lemma inject_Z_minus : forall a b, (inject_Z (a - b) == inject_Z a - inject_Z b)%Q.
Proof. intros. unfold Z.sub. rewrite inject_Z_plus, inject_Z_opp. reflexivity. Qed.

Lemma inject_Z_le : forall a b, (inject_Z a <= inject_Z b)%Q <-> a <= b.
Proof. intros. rewrite <- Zle_Qle. reflexivity. Qed.
Lemma inject_Z_lt : forall a b, (inject_Z a < inject_Z b)%Q <-> a < b.
Proof. intros. rewrite <- Zlt_Qlt. reflexivity. Qed.
Lemma inject_Z_eq : forall a b, (inject_Z a == inject_Z b)%Q <-> a = b.
Proof.
  intros; split; intros H.
  - apply Z.le_antisymm; apply (proj1 (inject_Z_le _ _)); rewrite H; apply Qle_refl.
  - subst; reflexivity.
Qed.

(** Compare [Qfloor] with integers. *)
Lemma Qfloor_iff : forall q z, z <= Qfloor q <-> (inject_Z z <= q)%Q.
Proof.
  intros q z; split; intros H.
  - apply Qle_trans with (inject_Z (Qfloor q)); [apply (proj2 (inject_Z_le _ _)); auto|apply Qfloor_le].
  - assert (L := Qlt_floor q).
    assert ((inject_Z z < inject_Z (Qfloor q + 1))%Q) by (eapply Qle_lt_trans; eauto).
    apply (proj1 (inject_Z_lt _ _)) in H0. lia.
Qed.
Lemma Qfloor_lt_iff : forall q z, Qfloor q < z <-> (q < inject_Z z)%Q.
Proof.
  intros q z. split; intros H.
  - apply Qnot_le_lt. intros L. apply (proj2 (Qfloor_iff _ _)) in L. lia.
  - destruct (Z_lt_ge_dec (Qfloor q) z); auto.
    assert (z <= Qfloor q) by lia. apply (proj1 (Qfloor_iff _ _)) in H0. lra.
Qed.

Lemma Qfloor_unique : forall q z,
  (inject_Z z <= q)%Q -> (q < inject_Z (z + 1))%Q -> Qfloor q = z.
Proof.
  intros q z H1 H2. apply (proj2 (Qfloor_iff _ _)) in H1. apply (proj2 (Qfloor_lt_iff _ _)) in H2. lia.
Qed.

Lemma py_int_of_Q_inject : forall z, py_int_of_Q (inject_Z z) = z.
Proof.
  intros. unfold py_int_of_Q. destruct (Qleb 0 (inject_Z z)).
  - apply Qfloor_Z.
  - apply Qceiling_Z.
Qed.

Lemma py_int_of_Q_nonneg : forall q, (0 <= q)%Q -> py_int_of_Q q = Qfloor q.
Proof.
  intros q H. unfold py_int_of_Q. apply Qleb_true in H. rewrite H. reflexivity.
Qed.

Lemma py_int_mono : forall a b, (a <= b)%Q -> py_int_of_Q a <= py_int_of_Q b.
Proof.
  intros a b H. unfold py_int_of_Q.
  destruct (Qleb 0 a) eqn:Ea; destruct (Qleb 0 b) eqn:Eb.
  - apply Qfloor_resp_le; auto.
  - apply Qleb_true in Ea. apply Qleb_false in Eb. lra.
  - apply Qleb_true in Eb. apply Qleb_false in Ea.
    apply Z.le_trans with 0.
    + assert (L : Qceiling a <= Qceiling 0) by (apply Qceiling_resp_le; lra). exact L.
    + apply (proj2 (Qfloor_iff _ _)). exact Eb.
  - apply Qceiling_resp_le; auto.
Qed.

Lemma py_div_ok : forall a b, b <> 0 -> py_div a b = Ok (a / b).
Proof. intros. unfold py_div. destruct (Z.eqb_spec b 0); congruence. Qed.
Lemma py_mod_ok : forall a b, b <> 0 -> py_mod a b = Ok (a mod b).
Proof. intros. unfold py_mod. destruct (Z.eqb_spec b 0); congruence. Qed.

Lemma py_last_app : forall {A} (l : list A) x, py_last (l ++ [x]) = Ok x.
Proof.
  induction l as [|a l IH]; intros; simpl; auto.
  rewrite IH. destruct (l ++ [x]) eqn:E; auto. destruct l; discriminate.
Qed.

Lemma py_last_ok : forall {A} (l : list A) d, l <> [] -> py_last l = Ok (last l d).
Proof.
  induction l as [|a l IH]; intros; [congruence|].
  simpl. destruct l; auto. apply IH. discriminate.
Qed.

Lemma bind_ok : forall {A B} (x : result A) (f : A -> result B) b,
  bind x f = Ok b <-> exists a, x = Ok a /\ f a = Ok b.
Proof.
  intros. destruct x; simpl; split; intros H.
  - eauto.
  - destruct H as (a0 & E & F). inversion E; subst; auto.
  - discriminate.
  - destruct H as (a0 & E & F). discriminate.
Qed.

(** ** Decimal text *)

Lemma digit_char_val : forall d, 0 <= d < 10 -> digit_val (digit_char d) = Some d.
Proof.
  intros d H.
  assert (K : d = 0 \/ d = 1 \/ d = 2 \/ d = 3 \/ d = 4 \/ d = 5 \/ d = 6 \/ d = 7
              \/ d = 8 \/ d = 9) by lia.
  repeat (destruct K as [K|K]; [subst; reflexivity|]). subst; reflexivity.
Qed.

(** a non-empty string of digits only *)
Fixpoint all_digits (s : string) : bool :=
  match s with
  | EmptyString => true
  | String c t => match digit_val c with Some _ => all_digits t | None => false end
  end.

Fixpoint digits_val (s : string) (acc : Z) : Z :=
  match s with
  | EmptyString => acc
  | String c t => match digit_val c with
                  | Some d => digits_val t (acc * 10 + d)
                  | None => acc
                  end
  end.

Lemma parse_digits_all : forall s acc seen,
  all_digits s = true -> (s <> EmptyString \/ seen = true) ->
  parse_digits s acc seen = Some (digits_val s acc).
Proof.
  induction s as [|c s IH]; intros acc seen H K; simpl in *.
  - destruct K as [K|K]; [congruence|]. rewrite K. reflexivity.
  - destruct (digit_val c) eqn:E; [|discriminate]. apply IH; auto.
Qed.

Lemma digit_not_space : forall c d, digit_val c = Some d -> is_space c = false.
Proof.
  intros c d. unfold digit_val, is_space.
  destruct ((48 <=? Z.of_nat (nat_of_ascii c)) && (Z.of_nat (nat_of_ascii c) <=? 57)) eqn:E;
    [|discriminate]. intros _. lia.
Qed.

Lemma string_app_assoc : forall a b c : string, ((a ++ b) ++ c = a ++ (b ++ c))%string.
Proof. induction a; intros; simpl; congruence. Qed.
Lemma string_app_nil_r : forall a : string, (a ++ "")%string = a.
Proof. induction a; simpl; congruence. Qed.

Lemma string_rev_app_spec : forall s acc,
  string_rev_app s acc = (string_rev s ++ acc)%string.
Proof.
  unfold string_rev. induction s; intros; simpl; auto.
  rewrite IHs. rewrite (IHs (String a "")). rewrite string_app_assoc. reflexivity.
Qed.
Lemma string_rev_cons : forall c s, string_rev (String c s) = (string_rev s ++ String c "")%string.
Proof. intros. unfold string_rev at 1. simpl. apply string_rev_app_spec. Qed.
Lemma string_rev_append : forall a b, string_rev (a ++ b) = (string_rev b ++ string_rev a)%string.
Proof.
  induction a; intros; simpl.
  - rewrite string_app_nil_r. reflexivity.
  - rewrite !string_rev_cons, IHa. apply string_app_assoc.
Qed.
Lemma string_rev_involutive : forall s, string_rev (string_rev s) = s.
Proof.
  induction s; auto. rewrite string_rev_cons, string_rev_append, IHs. reflexivity.
Qed.

Lemma lstrip_noop : forall c s, is_space c = false -> lstrip (String c s) = String c s.
Proof. intros. simpl. rewrite H. reflexivity. Qed.

Lemma all_digits_app : forall a b,
  all_digits (a ++ b)%string = all_digits a && all_digits b.
Proof.
  induction a; intros; simpl; auto.
  destruct (digit_val a); auto.
Qed.

Lemma all_digits_rev : forall s, all_digits (string_rev s) = all_digits s.
Proof.
  induction s; auto. rewrite string_rev_cons, all_digits_app, IHs. simpl.
  destruct (digit_val a); simpl; rewrite ?andb_true_r, ?andb_false_r; reflexivity.
Qed.

Lemma strip_digits : forall s, all_digits s = true -> strip s = s.
Proof.
  intros s H. unfold strip.
  assert (L : forall t, all_digits t = true -> lstrip t = t).
  { intros [|c t] Ht; auto. simpl in Ht. destruct (digit_val c) eqn:E; [|discriminate].
    apply lstrip_noop. eapply digit_not_space; eauto. }
  rewrite (L s H). rewrite L by (rewrite all_digits_rev; auto).
  apply string_rev_involutive.
Qed.

Lemma digit_val_not_sign : forall c d, digit_val c = Some d -> c <> "-"%char /\ c <> "+"%char
  /\ c <> "_"%char /\ c <> "."%char /\ c <> "t"%char.
Proof.
  intros c d H; repeat split; intros ->; discriminate.
Qed.

Lemma py_int_digits : forall s, all_digits s = true -> s <> EmptyString ->
  py_int s = Ok (digits_val s 0).
Proof.
  intros s H Hn. unfold py_int. rewrite strip_digits by auto.
  destruct s as [|c s]; [congruence|].
  assert (P := parse_digits_all (String c s) 0 false H (or_introl Hn)).
  simpl in H. destruct (digit_val c) eqn:E; [|discriminate].
  destruct (digit_val_not_sign _ _ E) as (N1 & N2 & _).
  assert (Hm : match String c s with
               | String "-" t => option_map Z.opp (parse_digits t 0 false)
               | String "+" t => parse_digits t 0 false
               | t => parse_digits t 0 false
               end = parse_digits (String c s) 0 false).
  { destruct c as [[] [] [] [] [] [] [] []]; try reflexivity;
    exfalso; (apply N1; reflexivity) || (apply N2; reflexivity). }
  rewrite Hm, P. reflexivity.
Qed.

Lemma digits_val_app : forall a b acc, all_digits a = true ->
  digits_val (a ++ b) acc = digits_val b (digits_val a acc).
Proof.
  induction a; intros b acc H; simpl in *; auto.
  destruct (digit_val a); [|discriminate]. apply IHa; auto.
Qed.

Lemma print_pos_fuel_acc : forall fuel n acc,
  print_pos_fuel fuel n acc = (print_pos_fuel fuel n "" ++ acc)%string.
Proof.
  induction fuel; intros n acc; simpl; auto.
  destruct (n / 10 =? 0); auto.
  rewrite IHfuel. rewrite (IHfuel _ (String _ "")). rewrite string_app_assoc. reflexivity.
Qed.

Lemma print_pos_fuel_spec : forall fuel n, 0 <= n < 10 ^ Z.of_nat fuel ->
  fuel <> O ->
  all_digits (print_pos_fuel fuel n "") = true /\
  digits_val (print_pos_fuel fuel n "") 0 = n /\
  print_pos_fuel fuel n "" <> EmptyString.
Proof.
  induction fuel; intros n H F; [congruence|]. simpl.
  assert (Hm : 0 <= n mod 10 < 10) by (apply Z.mod_pos_bound; lia).
  destruct (Z.eqb_spec (n / 10) 0) as [E|E].
  - simpl. rewrite digit_char_val by auto. repeat split; auto; try discriminate.
    assert (n = 10 * (n / 10) + n mod 10) by (apply Z.div_mod; lia). lia.
  - rewrite print_pos_fuel_acc.
    assert (Hq : 0 <= n / 10 < 10 ^ Z.of_nat fuel).
    { rewrite Nat2Z.inj_succ, Z.pow_succ_r in H by lia. split.
      - apply Z.div_pos; lia.
      - apply Z.div_lt_upper_bound; lia. }
    assert (fuel <> O) by (intros ->; simpl in Hq; lia).
    destruct (IHfuel (n / 10) Hq H0) as (A & B & C).
    rewrite all_digits_app, A. simpl. rewrite digit_char_val by auto.
    repeat split; auto.
    + rewrite digits_val_app by auto. simpl. rewrite digit_char_val by auto. rewrite B.
      assert (n = 10 * (n / 10) + n mod 10) by (apply Z.div_mod; lia). lia.
    + destruct (print_pos_fuel fuel (n / 10) ""); [congruence|discriminate].
Qed.

Lemma print_nat_spec : forall n, 0 <= n ->
  all_digits (print_nat n) = true /\ digits_val (print_nat n) 0 = n
  /\ print_nat n <> EmptyString.
Proof.
  intros n H. unfold print_nat. apply print_pos_fuel_spec; [|discriminate].
  split; auto. rewrite Nat2Z.inj_succ, Z2Nat.id by apply Z.log2_nonneg.
  destruct (Z.eq_dec n 0) as [->|N]; [reflexivity|].
  assert (n < 2 ^ Z.succ (Z.log2 n)) by (apply Z.log2_spec; lia).
  assert (2 ^ Z.succ (Z.log2 n) <= 10 ^ Z.succ (Z.log2 n)).
  { apply Z.pow_le_mono_l. lia. }
  lia.
Qed.

(** [int("%d" % n) == n] *)
Lemma py_int_print_nat : forall n, 0 <= n -> py_int (print_nat n) = Ok n.
Proof.
  intros n H. destruct (print_nat_spec n H) as (A & B & C).
  rewrite py_int_digits by auto. rewrite B. reflexivity.
Qed.

Lemma py_int_minus : forall s, all_digits s = true -> s <> EmptyString ->
  py_int (String "-" s) = Ok (- digits_val s 0).
Proof.
  intros s H Hn. unfold py_int.
  assert (S : strip (String "-" s) = String "-" s).
  { unfold strip. rewrite lstrip_noop by reflexivity.
    rewrite string_rev_cons.
    assert (K : lstrip (string_rev s ++ "-")%string = (string_rev s ++ "-")%string).
    { destruct (string_rev s) eqn:E; [reflexivity|].
      assert (D : all_digits (string_rev s) = true) by (rewrite all_digits_rev; auto).
      rewrite E in D. simpl in D. destruct (digit_val a) eqn:Ea; [|discriminate].
      apply lstrip_noop. eapply digit_not_space; eauto. }
    rewrite K, string_rev_append, string_rev_involutive. reflexivity. }
  rewrite S. rewrite parse_digits_all by auto. reflexivity.
Qed.

Lemma py_int_print : forall n, py_int (print_Z n) = Ok n.
Proof.
  intros n. unfold print_Z. destruct (Z.ltb_spec n 0).
  - destruct (print_nat_spec (- n)) as (A & B & C); [lia|].
    rewrite py_int_minus by auto. rewrite B. f_equal. lia.
  - apply py_int_print_nat. lia.
Qed.

Lemma print_Z_inj : forall a b, print_Z a = print_Z b -> a = b.
Proof.
  intros a b H. assert (K : Ok a = Ok b) by (rewrite <- !py_int_print, H; auto).
  congruence.
Qed.
