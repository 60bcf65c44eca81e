(** Lemmas about byte strings, slices and big-endian numbers. *)
From Verif Require Import Base BaseProofs BytesModel.
From Coq Require Import ZifyBool ZifyNat.
Open Scope Z_scope.

Lemma blen_nonneg : forall b, 0 <= blen b.
Proof. intros. unfold blen. lia. Qed.
Lemma blen_app : forall a b, blen (a ++ b) = blen a + blen b.
Proof. intros. unfold blen. rewrite app_length. lia. Qed.
Lemma blen_cons : forall x b, blen (x :: b) = 1 + blen b.
Proof. intros. unfold blen. simpl List.length. lia. Qed.
Lemma blen_nil : blen [] = 0.
Proof. reflexivity. Qed.
Lemma blen_zero : forall b, blen b = 0 -> b = [].
Proof. destruct b; auto. rewrite blen_cons. intros. assert (H0 := blen_nonneg b). lia. Qed.

Lemma btake_0 : forall b, btake 0 b = [].
Proof. reflexivity. Qed.
Lemma bdrop_0 : forall b, bdrop 0 b = b.
Proof. reflexivity. Qed.
Lemma btake_drop : forall n b, btake n b ++ bdrop n b = b.
Proof. intros. apply firstn_skipn. Qed.
Lemma blen_btake : forall n b, 0 <= n -> blen (btake n b) = Z.min n (blen b).
Proof. intros. unfold blen, btake. rewrite firstn_length. lia. Qed.
Lemma blen_bdrop : forall n b, 0 <= n -> blen (bdrop n b) = Z.max 0 (blen b - n).
Proof. intros. unfold blen, bdrop. rewrite skipn_length. lia. Qed.

Lemma btake_app_l : forall n a b, n <= blen a -> btake n (a ++ b) = btake n a.
Proof.
  intros. unfold btake, blen in *. rewrite firstn_app.
  replace (Z.to_nat n - List.length a)%nat with O by lia. rewrite firstn_O, app_nil_r. reflexivity.
Qed.
Lemma btake_app_r : forall n a b, blen a <= n -> btake n (a ++ b) = a ++ btake (n - blen a) b.
Proof.
  intros. unfold btake, blen in *. rewrite firstn_app, firstn_all2 by lia. f_equal. f_equal. lia.
Qed.
Lemma bdrop_app_l : forall n a b, n <= blen a -> bdrop n (a ++ b) = bdrop n a ++ b.
Proof.
  intros. unfold bdrop, blen in *. rewrite skipn_app.
  replace (Z.to_nat n - List.length a)%nat with O by lia. reflexivity.
Qed.
Lemma bdrop_app_r : forall n a b, blen a <= n -> bdrop n (a ++ b) = bdrop (n - blen a) b.
Proof.
  intros. unfold bdrop, blen in *. rewrite skipn_app, skipn_all2 by lia. simpl. f_equal. lia.
Qed.
Lemma btake_all : forall n b, blen b <= n -> btake n b = b.
Proof. intros. unfold btake, blen in *. apply firstn_all2. lia. Qed.
Lemma bdrop_all : forall n b, blen b <= n -> bdrop n b = [].
Proof. intros. unfold bdrop, blen in *. apply skipn_all2. lia. Qed.
Lemma btake_len : forall a b, btake (blen a) (a ++ b) = a.
Proof. intros. rewrite btake_app_r by lia. rewrite Z.sub_diag, btake_0, app_nil_r. reflexivity. Qed.
Lemma bdrop_len : forall a b, bdrop (blen a) (a ++ b) = b.
Proof. intros. rewrite bdrop_app_r by lia. rewrite Z.sub_diag. reflexivity. Qed.
Lemma bdrop_bdrop : forall n m b, 0 <= n -> 0 <= m -> bdrop n (bdrop m b) = bdrop (m + n) b.
Proof.
  intros. unfold bdrop. rewrite Z2Nat.inj_add by lia. generalize (Z.to_nat n) (Z.to_nat m).
  intros x y. revert b. induction y; intros b; simpl; auto.
  destruct b; simpl; auto. destruct x; reflexivity.
Qed.

Lemma bslice_mid : forall pre x post n, n = blen x ->
  bslice (blen pre) (blen pre + n) (pre ++ x ++ post) = x.
Proof.
  intros. subst. unfold bslice. rewrite bdrop_len.
  replace (blen pre + blen x - blen pre) with (blen x) by lia. apply btake_len.
Qed.
Lemma bslice_app_r : forall a z x y, 0 <= blen x <= a -> bslice a z (x ++ y) = bslice (a - blen x) (z - blen x) y.
Proof. intros. unfold bslice. rewrite bdrop_app_r by lia. f_equal. lia. Qed.
Lemma bslice_app_l : forall a z x y, 0 <= a <= z -> z <= blen x -> bslice a z (x ++ y) = bslice a z x.
Proof.
  intros. unfold bslice. rewrite bdrop_app_l by lia. apply btake_app_l.
  rewrite blen_bdrop by lia. lia.
Qed.
Lemma blen_bslice : forall a z b, 0 <= a <= z -> z <= blen b -> blen (bslice a z b) = z - a.
Proof. intros. unfold bslice. rewrite blen_btake, blen_bdrop by lia. lia. Qed.
Lemma blen_bslice_le : forall a z b, 0 <= a -> blen (bslice a z b) <= Z.max 0 (blen b - a).
Proof.
  intros. unfold bslice. destruct (Z_le_gt_dec 0 (z - a)).
  - rewrite blen_btake, blen_bdrop by lia. lia.
  - unfold btake. replace (Z.to_nat (z - a)) with O by lia. simpl. rewrite blen_nil. lia.
Qed.
Lemma bslice_0 : forall z b, bslice 0 z b = btake z b.
Proof. intros. unfold bslice. rewrite bdrop_0. f_equal. lia. Qed.

(** ** equality tests *)
Lemma bytes_eqb_eq : forall a b, bytes_eqb a b = true <-> a = b.
Proof.
  induction a; destruct b; simpl; split; intros; try congruence.
  - apply andb_prop in H. destruct H as [H1 H2]. apply Z.eqb_eq in H1. apply IHa in H2. congruence.
  - inversion H; subst. rewrite Z.eqb_refl. apply IHa. reflexivity.
Qed.
Lemma bytes_eqb_refl : forall a, bytes_eqb a a = true.
Proof. intros. apply bytes_eqb_eq. reflexivity. Qed.
Lemma bytes_eqb_neq : forall a b, bytes_eqb a b = false <-> a <> b.
Proof.
  intros. destruct (bytes_eqb a b) eqn:E.
  - apply bytes_eqb_eq in E. split; congruence.
  - split; auto. intros _ X. apply bytes_eqb_eq in X. congruence.
Qed.
Lemma bytes_in_iff : forall x l, bytes_in x l = true <-> In x l.
Proof.
  intros. unfold bytes_in. rewrite existsb_exists. split.
  - intros (y & H & E). apply bytes_eqb_eq in E. congruence.
  - intros H. exists x. split; auto. apply bytes_eqb_refl.
Qed.

(** ** big-endian numbers *)
Definition byte_ok (b : Z) : Prop := 0 <= b < 256.
Definition bytes_ok (b : bytes) : Prop := Forall byte_ok b.

Lemma be_bytes_length : forall n z, List.length (be_bytes n z) = n.
Proof.
  induction n; intros; simpl; auto. rewrite app_length, IHn. simpl. lia.
Qed.
Lemma blen_be_bytes : forall n z, blen (be_bytes n z) = Z.of_nat n.
Proof. intros. unfold blen. rewrite be_bytes_length. reflexivity. Qed.
Lemma be_bytes_ok : forall n z, bytes_ok (be_bytes n z).
Proof.
  induction n; intros; simpl; [constructor|]. apply Forall_app. split; [apply IHn|].
  constructor; [|constructor]. unfold byte_ok. apply Z.mod_pos_bound. lia.
Qed.
Lemma be_val_acc_app : forall a b acc, be_val_acc (a ++ b) acc = be_val_acc b (be_val_acc a acc).
Proof. induction a; intros; simpl; auto. Qed.
Lemma be_val_be_bytes : forall n z, 0 <= z < 256 ^ Z.of_nat n -> be_val (be_bytes n z) = z.
Proof.
  unfold be_val. induction n; intros z H.
  - simpl in *. lia.
  - simpl be_bytes. rewrite be_val_acc_app. rewrite IHn.
    + simpl. assert (K := Z.div_mod z 256 ltac:(lia)). lia.
    + rewrite Nat2Z.inj_succ, Z.pow_succ_r in H by lia. split.
      * apply Z.div_pos; lia.
      * apply Z.div_lt_upper_bound; lia.
Qed.
Lemma be_val_acc_bound : forall b acc, bytes_ok b -> 0 <= acc ->
  acc * 256 ^ blen b <= be_val_acc b acc < (acc + 1) * 256 ^ blen b.
Proof.
  induction b; intros acc H K; cbn [be_val_acc].
  - change (256 ^ blen []) with 1. lia.
  - inversion H; subst. unfold byte_ok in *. rewrite blen_cons.
    rewrite Z.pow_add_r by (try lia; apply blen_nonneg).
    assert (P : 0 < 256 ^ blen b) by (apply Z.pow_pos_nonneg; [lia|apply blen_nonneg]).
    specialize (IHb (acc * 256 + a) H3 ltac:(lia)). nia.
Qed.
Lemma be_val_bound : forall b, bytes_ok b -> 0 <= be_val b < 256 ^ blen b.
Proof. intros. assert (K := be_val_acc_bound b 0 H ltac:(lia)). unfold be_val. lia. Qed.

Lemma be_val_acc_shift : forall b acc, be_val_acc b acc = acc * 256 ^ blen b + be_val b.
Proof.
  unfold be_val. induction b; intros; cbn [be_val_acc].
  - change (256 ^ blen []) with 1. lia.
  - rewrite IHb, (IHb (0 * 256 + a)). rewrite blen_cons.
    rewrite Z.pow_add_r by (try lia; apply blen_nonneg). lia.
Qed.
Lemma be_val_app : forall a b, be_val (a ++ b) = be_val a * 256 ^ blen b + be_val b.
Proof. intros. unfold be_val at 1. rewrite be_val_acc_app. apply be_val_acc_shift. Qed.

Lemma be_bytes_be_val : forall n b, bytes_ok b -> List.length b = n -> be_bytes n (be_val b) = b.
Proof.
  induction n; intros b H L.
  - destruct b; [reflexivity|discriminate].
  - destruct (exists_last (l := b)) as (a & x & E); [intros ->; discriminate|]. subst b.
    rewrite app_length in L. simpl in L.
    apply Forall_app in H. destruct H as [H1 H2]. inversion H2; subst. unfold byte_ok in *.
    rewrite be_val_app. change (256 ^ blen [x]) with 256. change (be_val [x]) with x.
    cbn [be_bytes].
    assert (E1 : (be_val a * 256 + x) / 256 = be_val a).
    { symmetry. apply (Z.div_unique_pos _ _ _ x); lia. }
    assert (E2 : (be_val a * 256 + x) mod 256 = x).
    { symmetry. apply (Z.mod_unique_pos _ _ (be_val a)); lia. }
    rewrite E1, E2, IHn; auto. lia.
Qed.

Lemma bytes_ok_app : forall a b, bytes_ok (a ++ b) <-> bytes_ok a /\ bytes_ok b.
Proof. intros. apply Forall_app. Qed.
Lemma bytes_ok_btake : forall n b, bytes_ok b -> bytes_ok (btake n b).
Proof. intros. rewrite <- (btake_drop n b) in H. apply bytes_ok_app in H. tauto. Qed.
Lemma bytes_ok_bdrop : forall n b, bytes_ok b -> bytes_ok (bdrop n b).
Proof. intros. rewrite <- (btake_drop n b) in H. apply bytes_ok_app in H. tauto. Qed.

(** ** struct operations *)
Lemma u32_ok : forall b, blen b = 4 -> str_to_uint32 b = Ok (be_val b).
Proof. intros. unfold str_to_uint32. rewrite H. reflexivity. Qed.
Lemma u32_err : forall b, blen b <> 4 -> str_to_uint32 b = Err "struct.error".
Proof. intros. unfold str_to_uint32. destruct (Z.eqb_spec (blen b) 4); congruence. Qed.
Lemma u64_ok : forall b, blen b = 8 -> str_to_uint64 b = Ok (be_val b).
Proof. intros. unfold str_to_uint64. rewrite H. reflexivity. Qed.
Lemma p32_ok : forall z, 0 <= z < 4294967296 -> uint32_to_str z = Ok (be_bytes 4 z).
Proof.
  intros. unfold uint32_to_str. destruct (Z.leb_spec 0 z), (Z.ltb_spec z 4294967296); auto; lia.
Qed.
Lemma p32_inv : forall z b, uint32_to_str z = Ok b -> 0 <= z < 4294967296 /\ b = be_bytes 4 z.
Proof.
  intros z b. unfold uint32_to_str.
  destruct (Z.leb_spec 0 z), (Z.ltb_spec z 4294967296); simpl; intros; try discriminate.
  split; [lia|congruence].
Qed.
Lemma p64_ok : forall z, 0 <= z < 18446744073709551616 -> uint64_to_str z = Ok (be_bytes 8 z).
Proof.
  intros. unfold uint64_to_str.
  destruct (Z.leb_spec 0 z), (Z.ltb_spec z 18446744073709551616); auto; lia.
Qed.
Lemma p64_inv : forall z b, uint64_to_str z = Ok b -> 0 <= z < 18446744073709551616 /\ b = be_bytes 8 z.
Proof.
  intros z b. unfold uint64_to_str.
  destruct (Z.leb_spec 0 z), (Z.ltb_spec z 18446744073709551616); simpl; intros; try discriminate.
  split; [lia|congruence].
Qed.
Lemma be4_val : forall z, 0 <= z < 4294967296 -> be_val (be_bytes 4 z) = z.
Proof. intros. apply be_val_be_bytes. exact H. Qed.
Lemma be8_val : forall z, 0 <= z < 18446744073709551616 -> be_val (be_bytes 8 z) = z.
Proof. intros. apply be_val_be_bytes. exact H. Qed.

Lemma bstr_app : forall a b, bstr (a ++ b) = bstr a ++ bstr b.
Proof. induction a; intros; simpl; auto. rewrite IHa. reflexivity. Qed.
Lemma blen_bstr : forall s, blen (bstr s) = Z.of_nat (String.length s).
Proof. induction s; auto. simpl bstr. rewrite blen_cons, IHs. simpl String.length. lia. Qed.
Lemma bstr_ok : forall s, bytes_ok (bstr s).
Proof.
  induction s; simpl; constructor; auto. unfold byte_ok.
  assert (K := nat_ascii_bounded a). lia.
Qed.
