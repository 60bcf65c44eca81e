(** Lemmas about bit strings, the bit writer and the bit reader. *)
From Coq Require Import ZifyBool ZifyNat.
From Verif Require Import Base BaseProofs BitsModel BitsSpec.
Open Scope Z_scope.

Lemma ok_pair : forall A B (a c : A) (b d : B), Ok (a, b) = Ok (c, d) -> a = c /\ b = d.
Proof. intros. split; congruence. Qed.

(** *** Bits and numbers *)
Lemma bits_acc : forall l a, fold_left (fun a b => 2 * a + Z.b2z b) l a = a * 2 ^ Z.of_nat (List.length l) + bits_number l.
Proof.
  intros l. induction l as [|b l IH]; intros a; cbn [fold_left List.length].
  - unfold bits_number. cbn. lia.
  - unfold bits_number. cbn [fold_left]. rewrite (IH (2 * a + _)), (IH (2 * 0 + _)).
    rewrite Nat2Z.inj_succ, Z.pow_succ_r by lia. nia.
Qed.
Lemma bits_app : forall a b, bits_number (a ++ b) = bits_number a * 2 ^ Z.of_nat (List.length b) + bits_number b.
Proof. intros a b. unfold bits_number at 1. rewrite fold_left_app. fold (bits_number a). apply bits_acc. Qed.
Lemma bits_bound : forall l, 0 <= bits_number l < 2 ^ Z.of_nat (List.length l).
Proof.
  intros l. induction l as [|b l IH] using rev_ind; [unfold bits_number; cbn; lia|].
  rewrite bits_app, app_length. cbn [List.length]. replace (Z.of_nat (List.length l + 1)) with (Z.succ (Z.of_nat (List.length l))) by lia.
  rewrite Z.pow_succ_r by lia. change (2 ^ Z.of_nat 1) with 2. assert (0 <= bits_number [b] < 2) by (destruct b; unfold bits_number; cbn; lia). lia.
Qed.
Lemma field_split : forall buf p n m, 0 <= n -> 0 <= m ->
  field_at buf p (n + m) = field_at buf p n * 2 ^ m + field_at buf (p + n) m.
Proof.
  intros buf p n m N M. unfold field_at. rewrite Z2Nat.inj_add, seq_app, map_app, bits_app by lia.
  rewrite map_length, seq_length, Z2Nat.id by lia. f_equal. f_equal. rewrite Nat.add_0_l.
  assert (G : forall k s, map (fun i => bit_at buf (p + Z.of_nat i)) (seq (Z.to_nat n + s) k) = map (fun i => bit_at buf (p + n + Z.of_nat i)) (seq s k)).
  { intros k. induction k as [|k IH]; intros s; [reflexivity|]. cbn [seq map]. f_equal; [f_equal; lia|].
    replace (S (Z.to_nat n + s)) with (Z.to_nat n + S s)%nat by lia. apply IH. }
  specialize (G (Z.to_nat m) 0%nat). rewrite Nat.add_0_r in G. exact G.
Qed.
Lemma field_bound : forall buf p n, 0 <= n -> 0 <= field_at buf p n < 2 ^ n.
Proof.
  intros buf p n N. unfold field_at. pose proof (bits_bound (map (fun i => bit_at buf (p + Z.of_nat i)) (seq 0 (Z.to_nat n)))) as B.
  rewrite map_length, seq_length, Z2Nat.id in B by lia. exact B.
Qed.
Lemma field_0 : forall buf p, field_at buf p 0 = 0.
Proof. reflexivity. Qed.
Lemma field_1 : forall buf p, field_at buf p 1 = Z.b2z (bit_at buf p).
Proof. intros. unfold field_at. change (seq 0 (Z.to_nat 1)) with [0%nat]. cbn [map]. rewrite Z.add_0_r. unfold bits_number. cbn [fold_left]. lia. Qed.

(** *** The reader *)
Definition rd (buf : list Z) (p : Z) : reader := mk_reader buf (7 - p mod 8) (nth (Z.to_nat (p / 8)) buf 0) (p / 8 + 1) p.
Lemma land_bit : forall x k, 0 <= k -> (Z.land x (Z.shiftl 1 k) =? 0) = negb (Z.testbit x k).
Proof.
  intros x k K. destruct (Z.testbit x k) eqn:E; cbn [negb].
  - apply Z.eqb_neq. intros H. apply (f_equal (fun z => Z.testbit z k)) in H. rewrite Z.land_spec, Z.shiftl_spec, Z.sub_diag, E, Z.bits_0 in H by lia. discriminate.
  - apply Z.eqb_eq. apply Z.bits_inj_0. intros i. rewrite Z.land_spec.
    destruct (Z.eq_dec i k) as [->|N]; [rewrite E; reflexivity|].
    destruct (Z_lt_ge_dec i 0); [rewrite (Z.testbit_neg_r _ i) by lia; reflexivity|].
    rewrite Z.shiftl_spec by lia.
    destruct (Z_lt_ge_dec i k); [rewrite (Z.testbit_neg_r 1) by lia; apply andb_false_r|].
    rewrite (Z.bits_above_log2 1) by (cbn; lia). apply andb_false_r.
Qed.
Lemma lor_shift : forall a b n, 0 <= n -> 0 <= b < 2 ^ n -> Z.lor (Z.shiftl a n) b = a * 2 ^ n + b.
Proof.
  intros a b n N B. rewrite <- Z.shiftl_mul_pow2 by lia. 
  assert (L : Z.land (Z.shiftl a n) b = 0); [|rewrite Z.add_nocarry_lxor, Z.lxor_lor by exact L; reflexivity].
  apply Z.bits_inj_0. intros i. rewrite Z.land_spec.
  destruct (Z_lt_ge_dec i 0); [rewrite (Z.testbit_neg_r _ i) by lia; reflexivity|].
  rewrite Z.shiftl_spec by lia. destruct (Z_lt_ge_dec i n).
  - rewrite (Z.testbit_neg_r a) by lia. reflexivity.
  - destruct (Z.eq_dec b 0) as [->|]; [rewrite Z.bits_0; apply andb_false_r|].
    rewrite (Z.bits_above_log2 b); [apply andb_false_r|lia|]. assert (Z.log2 b < n) by (apply Z.log2_lt_pow2; lia). lia.
Qed.
Lemma get_bit_rd : forall buf p num, 0 <= p -> get_bit num (rd buf p) = (2 * num + Z.b2z (bit_at buf p), rd buf (p + 1)).
Proof.
  intros buf p num P. set (R := rd buf (p + 1)). unfold get_bit, rd. cbn [r_byte r_bit_pos r_buf r_index r_bit].
  assert (M : 0 <= p mod 8 < 8) by (apply Z.mod_pos_bound; lia).
  rewrite land_bit by lia. fold (bit_at buf p).
  assert (V : (if negb (bit_at buf p) then Z.shiftl num 1 else Z.lor (Z.shiftl num 1) 1) = 2 * num + Z.b2z (bit_at buf p)).
  { destruct (bit_at buf p); cbn [negb Z.b2z]; [rewrite lor_shift by lia|rewrite Z.shiftl_mul_pow2 by lia]; lia. }
  rewrite V. assert (D : p = 8 * (p / 8) + p mod 8) by (apply Z.div_mod; lia).
  destruct (7 - p mod 8 - 1 <? 0) eqn:E.
  - unfold R, rd. assert (E1 : (p + 1) / 8 = p / 8 + 1) by (symmetry; apply Z.div_unique with 0; lia).
    assert (E2 : (p + 1) mod 8 = 0) by (symmetry; apply Z.mod_unique with (p / 8 + 1); lia).
    rewrite E1, E2. reflexivity.
  - unfold R, rd. assert (E1 : (p + 1) / 8 = p / 8) by (symmetry; apply Z.div_unique with (p mod 8 + 1); lia).
    assert (E2 : (p + 1) mod 8 = p mod 8 + 1) by (symmetry; apply Z.mod_unique with (p / 8); lia).
    rewrite E1, E2. f_equal. f_equal; lia.
Qed.
Lemma get_loop_rd : forall buf n p num, 0 <= p ->
  get_loop n num (rd buf p) = (num * 2 ^ Z.of_nat n + field_at buf p (Z.of_nat n), rd buf (p + Z.of_nat n)).
Proof.
  intros buf n. induction n as [|n IH]; intros p num P.
  - cbn [get_loop]. change (Z.of_nat 0) with 0. rewrite field_0, !Z.add_0_r, Z.pow_0_r, Z.mul_1_r. reflexivity.
  - cbn [get_loop]. rewrite get_bit_rd by exact P. rewrite IH by lia. f_equal.
    + replace (Z.of_nat (S n)) with (1 + Z.of_nat n) by lia. rewrite field_split, field_1, Z.pow_add_r by lia. change (2 ^ 1) with 2. lia.
    + f_equal. lia.
Qed.
Lemma get_bits_rd : forall buf p n, 0 <= p -> 0 <= n -> get_bits n (rd buf p) = Ok (field_at buf p n, rd buf (p + n)).
Proof.
  intros buf p n P N. unfold get_bits. replace (n <? 0) with false by lia. rewrite get_loop_rd by exact P.
  rewrite Z2Nat.id by exact N. reflexivity.
Qed.
Lemma reader_init_rd : forall buf, buf <> [] -> reader_init buf = Ok (rd buf 0).
Proof. intros [|b l] N; [contradiction|reflexivity]. Qed.

(** *** The writer *)
Definition be (l : list Z) : Z := fold_left (fun a x => a * 256 + x) l 0.
Lemma be_snoc : forall l x, be (l ++ [x]) = be l * 256 + x.
Proof. intros. unfold be. rewrite fold_left_app. reflexivity. Qed.
Record state (w : writer) (A L : Z) : Prop := {
  st_bytes : Forall is_byte (w_bytes w);
  st_n : 0 <= w_n w < 8;
  st_cur : 0 <= w_cur w < 2 ^ w_n w;
  st_num : be (w_bytes w) * 2 ^ w_n w + w_cur w = A;
  st_len : 8 * Z.of_nat (List.length (w_bytes w)) + w_n w = L
}.
Lemma add_loop_state : forall fuel data todo w A L, state w A L -> 0 <= todo <= 33 -> 0 <= data < 2 ^ todo -> todo <= Z.of_nat fuel ->
  exists data' todo' w' A' L', add_loop fuel data todo w = Ok (data', todo', w') /\ state w' A' L' /\
    0 <= todo' <= 33 /\ 0 <= data' < 2 ^ todo' /\ todo' + w_n w' < 8 /\ A' * 2 ^ todo' + data' = A * 2 ^ todo + data /\ L' + todo' = L + todo.
Proof.
  intros fuel. induction fuel as [|fuel IH]; intros data todo w A L S T D F; cbn [add_loop].
  - destruct S as [S1 S2 S3 S4 S5]. replace (todo + w_n w <? 8) with true by lia.
    exists data, todo, w, A, L. repeat (split; [first [reflexivity | constructor; assumption | lia]|]). lia.
  - destruct (todo + w_n w <? 8) eqn:E.
    + exists data, todo, w, A, L. repeat (split; [first [reflexivity | assumption | lia]|]). lia.
    + destruct S as [S1 S2 S3 S4 S5]. set (n := w_n w) in *. set (ins := 8 - n).
      assert (Ti : 0 <= todo - ins) by (unfold ins; lia).
      rewrite Z.shiftr_div_pow2 by lia.
      assert (P : 2 ^ todo = 2 ^ ins * 2 ^ (todo - ins)) by (rewrite <- Z.pow_add_r by (unfold ins; lia); f_equal; lia).
      assert (Q : 0 < 2 ^ (todo - ins)) by (apply Z.pow_pos_nonneg; lia).
      assert (Qi : 0 < 2 ^ ins) by (apply Z.pow_pos_nonneg; unfold ins; lia).
      assert (Bi : 0 <= data / 2 ^ (todo - ins) < 2 ^ ins).
      { split; [apply Z.div_pos; lia|]. apply Z.div_lt_upper_bound; [lia|]. rewrite Z.mul_comm, <- P. lia. }
      rewrite lor_shift by (try exact Bi; unfold ins; lia).
      set (x := w_cur w * 2 ^ ins + data / 2 ^ (todo - ins)).
      assert (P8 : 2 ^ n * 2 ^ ins = 256) by (rewrite <- Z.pow_add_r by (unfold ins; lia); replace (n + ins) with 8 by (unfold ins; lia); reflexivity).
      assert (X : is_byte x) by (unfold is_byte, x; nia).
      unfold append_byte. unfold is_byte in X. replace ((0 <=? x) && (x <? 256)) with true by lia. cbn [bind].
      unfold mask. replace (todo - ins <? 34) with true by (unfold ins; lia). cbn [bind].
      rewrite Z.land_ones by lia.
      destruct (IH (data mod 2 ^ (todo - ins)) (todo - ins) (mk_writer (w_bytes w ++ [x]) 0 0) (be (w_bytes w ++ [x])) (L + ins))
        as (data' & todo' & w' & A' & L' & H1 & H2 & H3 & H4 & H5 & H6 & H7).
      * constructor; cbn [w_bytes w_cur w_n].
        -- apply Forall_app. split; [exact S1|]. repeat constructor; unfold is_byte; lia.
        -- lia.
        -- cbn. lia.
        -- lia.
        -- rewrite app_length. cbn [List.length]. unfold ins. lia.
      * unfold ins. lia.
      * apply Z.mod_pos_bound. lia.
      * unfold ins. lia.
      * exists data', todo', w', A', L'. split; [exact H1|]. split; [exact H2|]. split; [exact H3|]. split; [exact H4|]. split; [exact H5|].
        split; [|lia]. rewrite H6, be_snoc. unfold x.
        assert (DM : data = 2 ^ (todo - ins) * (data / 2 ^ (todo - ins)) + data mod 2 ^ (todo - ins)) by (apply Z.div_mod; lia).
        rewrite P, <- S4. set (q := data / _) in *. set (m := data mod _) in *. set (k := 2 ^ (todo - ins)) in *. 
        rewrite DM. rewrite <- P8. fold n. ring.
Qed.
Lemma add_bits_state : forall v k w A L, state w A L -> 0 <= k <= 33 -> 0 <= v < 2 ^ k ->
  exists w', add_bits v k w = Ok w' /\ state w' (A * 2 ^ k + v) (L + k).
Proof.
  intros v k w A L S K V. unfold add_bits.
  destruct (add_loop_state (Z.to_nat k) v k w A L S K V ltac:(lia)) as (d & t & w1 & A1 & L1 & -> & S1 & T1 & D1 & N1 & E1 & E2).
  cbn [bind]. destruct (0 <? t) eqn:E.
  - unfold mask. replace (t <? 34) with true by lia. cbn [bind]. eexists. split; [reflexivity|].
    destruct S1 as [X1 X2 X3 X4 X5]. rewrite Z.land_ones, Z.mod_small by lia. rewrite lor_shift by lia.
    constructor; cbn [w_bytes w_cur w_n]; [exact X1|lia| | |lia].
    + rewrite Z.pow_add_r by lia. nia.
    + rewrite Z.pow_add_r by lia. nia.
  - exists w1. split; [reflexivity|]. assert (t = 0) by lia. subst t. assert (d = 0) by (cbn in D1; lia). subst d.
    rewrite Z.pow_0_r, Z.mul_1_r, !Z.add_0_r in *. rewrite <- E1, <- E2. exact S1.
Qed.
Fixpoint number (l : list (Z * Z)) : Z := match l with [] => 0 | (v, n) :: r => v * 2 ^ total_width r + number r end.
Lemma total_pos : forall l, Forall fits l -> 0 <= total_width l.
Proof. intros l F. induction F as [|(v, n) l [H _] F IH]; [cbn; lia|]. unfold total_width in *. cbn [fold_right snd] in *. lia. Qed.
Lemma number_bound : forall l, Forall fits l -> 0 <= number l < 2 ^ total_width l.
Proof.
  intros l F. induction F as [|(v, n) l (H1 & H2) F IH]; [cbn; lia|]. cbn [number total_width fold_right fst snd] in *.
  fold (total_width l). assert (T := total_pos l F). rewrite Z.pow_add_r by lia. nia.
Qed.
Lemma write_state : forall l w A L, state w A L -> Forall fits l -> Forall (fun f => snd f <= 33) l ->
  exists w', write_fields l w = Ok w' /\ state w' (A * 2 ^ total_width l + number l) (L + total_width l).
Proof.
  intros l. induction l as [|(v, n) l IH]; intros w A L S F W.
  - exists w. cbn. rewrite Z.mul_1_r, !Z.add_0_r. split; [reflexivity|exact S].
  - inversion F as [|? ? (F1 & F2) F3]; inversion W as [|? ? W1 W2]; subst. cbn [fst snd] in *.
    destruct (add_bits_state v n w A L S ltac:(lia) F2) as (w1 & E1 & S1). cbn [write_fields]. rewrite E1. cbn [bind].
    destruct (IH _ _ _ S1 F3 W2) as (w2 & E2 & S2). exists w2. split; [exact E2|].
    cbn [total_width fold_right number snd]. fold (total_width l). assert (T := total_pos l F3).
    replace (A * 2 ^ (n + total_width l) + (v * 2 ^ total_width l + number l)) with ((A * 2 ^ n + v) * 2 ^ total_width l + number l)
      by (rewrite Z.pow_add_r by lia; ring).
    replace (L + (n + total_width l)) with (L + n + total_width l) by lia. exact S2.
Qed.

(** *** Bytes and bits *)
Lemma byte_bits : forall x, is_byte x -> bits_number (map (fun i => Z.testbit x (7 - Z.of_nat i)) (seq 0 8)) = x.
Proof.
  intros x B. assert (T : forallb (fun x => bits_number (map (fun i => Z.testbit x (7 - Z.of_nat i)) (seq 0 8)) =? x) (map Z.of_nat (seq 0 256)) = true)
    by (vm_compute; reflexivity).
  rewrite forallb_forall in T. apply Z.eqb_eq, T. apply in_map_iff. exists (Z.to_nat x). unfold is_byte in B. split; [lia|].
  apply in_seq. lia.
Qed.
Lemma field_prefix : forall l r p n, 0 <= p -> 0 <= n -> p + n <= 8 * Z.of_nat (List.length l) -> field_at (l ++ r) p n = field_at l p n.
Proof.
  intros l r p n P N H. unfold field_at. f_equal. apply map_ext_in. intros i I. apply in_seq in I. unfold bit_at. f_equal.
  apply app_nth1. assert ((p + Z.of_nat i) / 8 < Z.of_nat (List.length l)) by (apply Z.div_lt_upper_bound; lia).
  assert (0 <= (p + Z.of_nat i) / 8) by (apply Z.div_pos; lia). lia.
Qed.
Lemma be_field : forall l, Forall is_byte l -> field_at l 0 (8 * Z.of_nat (List.length l)) = be l.
Proof.
  intros l. induction l as [|x l IH] using rev_ind; intros F; [reflexivity|].
  apply Forall_app in F. destruct F as (F1 & F2). inversion F2 as [|? ? X _]; subst.
  rewrite app_length. cbn [List.length]. replace (8 * Z.of_nat (List.length l + 1)) with (8 * Z.of_nat (List.length l) + 8) by lia.
  rewrite field_split by lia. rewrite field_prefix by lia. rewrite IH by exact F1. rewrite be_snoc. f_equal.
  unfold field_at. change (Z.to_nat 8) with 8%nat. transitivity (bits_number (map (fun i => Z.testbit x (7 - Z.of_nat i)) (seq 0 8))); [|apply byte_bits; exact X]. f_equal. apply map_ext_in. intros i I. apply in_seq in I.
  unfold bit_at. set (k := Z.of_nat (List.length l)).
  assert (E1 : (0 + 8 * k + Z.of_nat i) / 8 = k) by (symmetry; apply Z.div_unique with (Z.of_nat i); lia).
  assert (E2 : (0 + 8 * k + Z.of_nat i) mod 8 = Z.of_nat i) by (symmetry; apply Z.mod_unique with k; lia).
  rewrite E1, E2. unfold k. rewrite Nat2Z.id, app_nth2, Nat.sub_diag by lia. reflexivity.
Qed.
Lemma written : forall buf l p, Forall fits l -> field_at buf p (total_width l) = number l -> written_at buf p l.
Proof.
  intros buf l. induction l as [|(v, n) l IH]; intros p F H; [exact I|]. inversion F as [|? ? (F1 & F2) F3]; subst. cbn [fst snd] in *.
  cbn [total_width fold_right number snd] in H. fold (total_width l) in H. assert (T := total_pos l F3).
  rewrite field_split in H by lia. assert (B := field_bound buf (p + n) (total_width l) T). assert (NB := number_bound l F3).
  assert (E : field_at buf p n = v /\ field_at buf (p + n) (total_width l) = number l).
  { set (k := 2 ^ total_width l) in *. assert (field_at buf p n = v); [nia|]. subst v. split; [reflexivity|nia]. }
  split; [apply E|]. apply IH; [exact F3|apply E].
Qed.
Lemma read_written : forall buf l p, 0 <= p -> Forall fits l -> written_at buf p l ->
  read_fields (map snd l) (rd buf p) = Ok (map fst l, rd buf (p + total_width l)).
Proof.
  intros buf l. induction l as [|(v, n) l IH]; intros p P F W.
  - cbn. rewrite Z.add_0_r. reflexivity.
  - inversion F as [|? ? (F1 & F2) F3]; subst. cbn [fst snd written_at map read_fields] in *. destruct W as (W1 & W2).
    rewrite get_bits_rd by lia. cbn [bind]. rewrite IH by (auto; lia). cbn [bind]. rewrite W1.
    cbn [total_width fold_right snd]. fold (total_width l). do 3 f_equal. lia.
Qed.

(** *** Exponential Golomb codes *)
Lemma bit_inside : forall buf p, 0 <= p -> bit_at buf p = true -> p < 8 * Z.of_nat (List.length buf).
Proof.
  intros buf p P B. destruct (Z_lt_ge_dec p (8 * Z.of_nat (List.length buf))) as [L|G]; [exact L|].
  unfold bit_at in B. rewrite nth_overflow in B; [rewrite Z.bits_0 in B; discriminate|].
  assert (Z.of_nat (List.length buf) <= p / 8) by (apply Z.div_le_lower_bound; lia). lia.
Qed.
Lemma ue_zeros_rd : forall buf k fuel p z, 0 <= p -> field_at buf p (Z.of_nat k) = 0 -> bit_at buf (p + Z.of_nat k) = true -> (k < fuel)%nat ->
  ue_zeros fuel z (rd buf p) = Ok (z + Z.of_nat k, rd buf (p + Z.of_nat k + 1)).
Proof.
  intros buf k. induction k as [|k IH]; intros fuel p z P F B L; (destruct fuel as [|fuel]; [lia|]); cbn [ue_zeros];
    rewrite get_bits_rd by lia; cbn [bind]; rewrite field_1.
  - change (Z.of_nat 0) with 0 in *. rewrite Z.add_0_r in *. rewrite B. cbn [Z.b2z]. rewrite Z.add_0_r. reflexivity.
  - replace (Z.of_nat (S k)) with (1 + Z.of_nat k) in * by lia. rewrite field_split in F by lia.
    assert (B1 := field_bound buf p 1 ltac:(lia)). assert (B2 := field_bound buf (p + 1) (Z.of_nat k) ltac:(lia)).
    rewrite field_1 in *. assert (0 < 2 ^ Z.of_nat k) by (apply Z.pow_pos_nonneg; lia).
    assert (Z.b2z (bit_at buf p) = 0) as -> by nia. cbn [Z.eqb]. rewrite IH; [f_equal; f_equal; [lia|f_equal; lia]|lia|nia| |lia].
    rewrite <- B. f_equal. lia.
Qed.
Lemma ue_zeros_end : forall buf fuel p z, 0 <= p -> (forall q, p <= q -> bit_at buf q = false) -> ue_zeros fuel z (rd buf p) = Err "diverges".
Proof.
  intros buf fuel. induction fuel as [|fuel IH]; intros p z P A; [reflexivity|]. cbn [ue_zeros]. rewrite get_bits_rd by lia. cbn [bind].
  rewrite field_1, A by lia. cbn [Z.b2z Z.eqb]. apply IH; [lia|]. intros q Q. apply A. lia.
Qed.
Lemma ue_golomb : forall buf p v k, 0 <= p -> 0 <= k -> 2 ^ k <= v + 1 < 2 ^ (k + 1) -> field_at buf p k = 0 -> field_at buf (p + k) (k + 1) = v + 1 ->
  ue (rd buf p) = Ok (v, rd buf (p + 2 * k + 1)).
Proof.
  intros buf p v k P K V F G. replace (k + 1) with (1 + k) in * by lia. rewrite field_split in G by lia.
  rewrite Z.pow_add_r in V by lia. change (2 ^ 1) with 2 in V.
  assert (B := field_bound buf (p + k + 1) k K). rewrite field_1 in G.
  assert (T : bit_at buf (p + k) = true) by (destruct (bit_at buf (p + k)); [reflexivity|cbn [Z.b2z] in G; lia]).
  rewrite T in G. cbn [Z.b2z] in G. unfold ue.
  assert (I := bit_inside buf (p + k) ltac:(lia) T).
  rewrite (ue_zeros_rd buf (Z.to_nat k)); rewrite ?Z2Nat.id by lia.
  - rewrite Z.add_0_l. cbn [bind]. rewrite get_bits_rd by lia. cbn [bind]. do 2 f_equal; [lia|]. f_equal. lia.
  - exact P.
  - exact F.
  - exact T.
  - unfold remaining_bits, rd. cbn [r_buf r_bit]. lia.
Qed.
