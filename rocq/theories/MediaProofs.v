(** MediaSegmentFilter on well-formed segments. *)
From Verif Require Import Base BaseProofs BytesModel BytesProofs Mp4Model BoxSpec Mp4Proofs
  EmsgModel TtmlModel TimeModel MediaModel MediaSpec.
From Coq Require Import ZifyBool ZifyNat.
Open Scope Z_scope.

(** ** flags *)
Lemma land_pow2 : forall v k, 0 <= k -> Z.land v (2 ^ k) = if Z.testbit v k then 2 ^ k else 0.
Proof.
  intros v k Hk. apply Z.bits_inj'. intros n Hn. rewrite Z.land_spec.
  destruct (Z.eq_dec n k) as [->|N].
  - rewrite Z.pow2_bits_true by auto. destruct (Z.testbit v k).
    + rewrite Z.pow2_bits_true by auto. reflexivity.
    + rewrite Z.bits_0. reflexivity.
  - rewrite Z.pow2_bits_false by auto. rewrite andb_false_r.
    destruct (Z.testbit v k); [rewrite Z.pow2_bits_false by auto|rewrite Z.bits_0]; reflexivity.
Qed.
Lemma flag_testbit : forall v k, 0 <= k < 24 -> flag (Z.land v 16777215) (2 ^ k) = Z.testbit v k.
Proof.
  intros v k Hk. unfold flag. rewrite <- Z.land_assoc.
  assert (E : Z.land 16777215 (2 ^ k) = 2 ^ k).
  { change 16777215 with (Z.ones 24). rewrite Z.land_comm, Z.land_ones by lia.
    apply Z.mod_small. split; [apply Z.pow_nonneg; lia|]. apply Z.pow_lt_mono_r; lia. }
  rewrite E, land_pow2 by lia. destruct (Z.testbit v k); [|reflexivity].
  destruct (Z.eqb_spec (2 ^ k) 0); [|reflexivity].
  assert (0 < 2 ^ k) by (apply Z.pow_pos_nonneg; lia). lia.
Qed.

(** ** slices behind an 8-byte header *)
Section Hdr.
  Variable h pl : bytes.
  Hypothesis Hh : blen h = 8.
  Lemma slice_hdr : forall a z, 8 <= a -> bslice a z (h ++ pl) = bslice (a - 8) (z - 8) pl.
  Proof. intros. rewrite bslice_app_r by lia. rewrite Hh. reflexivity. Qed.
  Lemma take_hdr : forall n, 8 <= n -> btake n (h ++ pl) = h ++ btake (n - 8) pl.
  Proof. intros. rewrite btake_app_r by lia. rewrite Hh. reflexivity. Qed.
  Lemma drop_hdr : forall n, 8 <= n -> bdrop n (h ++ pl) = bdrop (n - 8) pl.
  Proof. intros. rewrite bdrop_app_r by lia. rewrite Hh. reflexivity. Qed.
End Hdr.

Lemma enc_leaf : forall t pl, enc (Leaf t pl) = (be32 (8 + blen pl) ++ t) ++ pl.
Proof. intros. cbn [enc]. rewrite <- app_assoc. reflexivity. Qed.
Lemma hdr_len : forall n t, blen t = 4 -> blen (be32 n ++ t) = 8.
Proof. intros. rewrite blen_app, blen_be32. lia. Qed.


Lemma btake_len' : forall n a b, n = blen a -> btake n (a ++ b) = a.
Proof. intros. subst. apply btake_len. Qed.
Lemma bdrop_len' : forall n a b, n = blen a -> bdrop n (a ++ b) = b.
Proof. intros. subst. apply bdrop_len. Qed.
Lemma bslice_len' : forall n z a x b, n = blen a -> z = n + blen x -> bslice n z (a ++ x ++ b) = x.
Proof. intros. subst. apply bslice_mid. reflexivity. Qed.

Lemma drop8_leaf : forall t pl, blen t = 4 -> bdrop 8 (enc (Leaf t pl)) = pl.
Proof. intros. rewrite enc_leaf. apply bdrop_len'. symmetry. apply hdr_len; auto. Qed.

(** be_val and be_bytes of exact-length byte strings *)
Lemma be32_of : forall b, bytes_ok b -> blen b = 4 -> exists z, b = be32 z /\ 0 <= z < 4294967296 /\ be_val b = z.
Proof.
  intros b H L. exists (be_val b). assert (B := be_val_bound b H). rewrite L in B.
  split; [|split; auto]. rewrite <- be32_eq. symmetry. apply be_bytes_be_val; auto.
  unfold blen in L. lia.
Qed.
Lemma be64_of : forall b, bytes_ok b -> blen b = 8 ->
  exists z, b = be64 z /\ 0 <= z < 18446744073709551616 /\ be_val b = z.
Proof.
  intros b H L. exists (be_val b). assert (B := be_val_bound b H). rewrite L in B.
  split; [|split; auto]. rewrite <- be64_eq. symmetry. apply be_bytes_be_val; auto.
  unfold blen in L. lia.
Qed.

(** ** What the filter puts behind styp *)
Definition events (p : mparams) : list box :=
  match create_scte35box (mp_scte35 p) (mp_seg_nr p) (mp_seg_duration p) with
  | Ok [] => []
  | Ok b => [Leaf (bstr "emsg") (bdrop 8 b)]
  | Err _ => []
  end.
Definition req_of (p : mparams) (ttml : option Z) : request :=
  mk_request (mp_seg_nr p)
    (match mp_timescale p with Some ts => mp_offset p * ts | None => 0 end)
    (mp_lmsg p) ttml (events p).

Definition lf_boxes (p : mparams) (t out : bytes) : list box :=
  if bytes_eqb t (bstr "sidx") then []
  else if bytes_eqb t (bstr "styp")
  then Leaf t (bslice 8 (be_val (btake 4 out)) out) :: events p
  else [Leaf t (bdrop 8 out)].
Definition lf (p : mparams) (t pl : bytes) (st : mstate) : result (list box * mstate) :=
  let* (out, st1) := process_leaf (m_class p) t (enc (Leaf t pl)) st in
  Ok (lf_boxes p t out, st1).

(** ** emsg boxes of ASCII texts *)
Definition ascii_char (c : ascii) : bool := Nat.ltb (nat_of_ascii c) 128.
Fixpoint ascii_text (s : string) : bool :=
  match s with EmptyString => true | String c t => ascii_char c && ascii_text t end.
Lemma encode_ascii : forall s, ascii_text s = true -> encode_utf8 s = bstr s.
Proof.
  induction s; intros H; auto. cbn [ascii_text] in H. apply andb_prop in H. destruct H as [A B].
  cbn [encode_utf8 bstr]. unfold ascii_char in A. apply Nat.ltb_lt in A.
  destruct (Z.ltb_spec (Z.of_nat (nat_of_ascii a)) 128); [|lia]. rewrite IHs by auto. reflexivity.
Qed.
Lemma ascii_text_app : forall a b, ascii_text (a ++ b) = ascii_text a && ascii_text b.
Proof. induction a; intros; simpl; auto. rewrite IHa, andb_assoc. reflexivity. Qed.

Definition emsg_payload (e : emsg) : bytes :=
  [0;0;0;0] ++ (bstr (em_scheme e) ++ [0]) ++ (bstr (em_value e) ++ [0])
  ++ be32 (em_timescale e) ++ be32 (em_delta e) ++ be32 (em_duration e) ++ be32 (em_id e)
  ++ bstr (em_data e).

Lemma emsg_box_enc : forall e b, ascii_text (em_scheme e) = true -> ascii_text (em_value e) = true ->
  ascii_text (em_data e) = true -> emsg_box e = Ok b -> b = enc (Leaf (bstr "emsg") (emsg_payload e)).
Proof.
  intros e b A1 A2 A3 H. unfold emsg_box in H. rewrite !encode_ascii in H by auto.
  repeat match type of H with
  | bind (uint32_to_str ?z) _ = _ =>
      let E := fresh "E" in destruct (uint32_to_str z) eqn:E; cbn [bind] in H; [|discriminate];
      apply p32_inv in E; destruct E as [? ->]
  end.
  rewrite !be32_eq in H.
  assert (SZ : 12 + 4 * 4 + Z.of_nat (String.length (em_scheme e)) + 1
               + Z.of_nat (String.length (em_value e)) + 1 + Z.of_nat (String.length (em_data e))
               = 8 + blen (emsg_payload e)).
  { unfold emsg_payload. rewrite !blen_app, !blen_be32, !blen_bstr.
    change (blen [0;0;0;0]) with 4. change (blen [0]) with 1. lia. }
  rewrite SZ in H. rewrite enc_leaf. unfold emsg_payload at 2. rewrite <- !app_assoc in *.
  congruence.
Qed.

Lemma digits_ascii : forall s, all_digits s = true -> ascii_text s = true.
Proof.
  induction s; intros H; auto. cbn [all_digits] in H. destruct (digit_val a) eqn:E; [|discriminate].
  cbn [ascii_text]. rewrite IHs by auto. unfold digit_val in E.
  destruct ((48 <=? Z.of_nat (nat_of_ascii a)) && (Z.of_nat (nat_of_ascii a) <=? 57)) eqn:K; [|discriminate].
  unfold ascii_char. rewrite andb_true_r. apply Nat.ltb_lt. lia.
Qed.
Lemma print_ascii : forall n, ascii_text (print_Z n) = true.
Proof.
  intros. unfold print_Z. destruct (Z.ltb_spec n 0).
  - cbn [ascii_text]. rewrite digits_ascii; [reflexivity|]. apply print_nat_spec. lia.
  - apply digits_ascii. apply print_nat_spec. lia.
Qed.
Lemma join_ascii : forall sep l, ascii_text sep = true -> Forall (fun s => ascii_text s = true) l ->
  ascii_text (join sep l) = true.
Proof.
  intros sep l Hs. induction l as [|a l IH]; intros H; [reflexivity|]. inversion H; subst.
  cbn [join]. destruct l; [auto|]. rewrite !ascii_text_app, Hs, H2, IH by auto. reflexivity.
Qed.
Lemma scte35_message_ascii : forall a b c, ascii_text (scte35_message a b c) = true.
Proof.
  intros. unfold scte35_message. apply join_ascii; [reflexivity|].
  assert (At : forall k v, ascii_text k = true -> ascii_text v = true -> ascii_text (attr k v) = true).
  { intros. unfold attr. rewrite !ascii_text_app, H, H0. reflexivity. }
  apply Forall_app. split; [|apply Forall_app; split].
  - repeat constructor; rewrite ?ascii_text_app; rewrite ?andb_true_iff; repeat split;
      try reflexivity; try (apply At; [reflexivity|apply print_ascii]).
    apply join_ascii; [reflexivity|]. repeat constructor; try reflexivity;
      try (apply At; [reflexivity|apply print_ascii]).
  - destruct (c =? 0); repeat constructor. rewrite ?ascii_text_app. rewrite ?andb_true_iff; repeat split;
      try reflexivity; try (apply At; [reflexivity|apply print_ascii]).
  - repeat constructor.
Qed.

Lemma bind_Ok : forall A B (a : A) (f : A -> result B), bind (Ok a) f = f a.
Proof. reflexivity. Qed.
Lemma scte35_emsg_ascii : forall ts a b c d e em, scte35_emsg ts a b c d e = Ok em ->
  ascii_text (em_scheme em) = true /\ ascii_text (em_value em) = true /\ ascii_text (em_data em) = true.
Proof.
  intros ts a b c d e em R. unfold scte35_emsg in R. destruct (negb (ts =? 90000)); [discriminate|].
  assert (K := scte35_message_ascii e (b mod 8589934592) c).
  revert R K. generalize (scte35_message e (b mod 8589934592) c). intros m R K.
  injection R as R. rewrite <- R. repeat split; auto.
Qed.
Lemma create_scte35_emsg_enc : forall ts a b c d e x, create_scte35_emsg ts a b c d e = Ok x ->
  exists pl, x = enc (Leaf (bstr "emsg") pl).
Proof.
  intros ts a b c d e x H. unfold create_scte35_emsg in H.
  remember (scte35_emsg ts a b c d e) as r eqn:R.
  destruct r as [em|]; [|discriminate]. rewrite bind_Ok in H.
  symmetry in R. apply scte35_emsg_ascii in R.
  exists (emsg_payload em). apply emsg_box_enc; tauto.
Qed.

Lemma emsg_box_size : forall e b, ascii_text (em_scheme e) = true -> ascii_text (em_value e) = true ->
  ascii_text (em_data e) = true -> emsg_box e = Ok b -> 8 + blen (emsg_payload e) < 4294967296.
Proof.
  intros e b A1 A2 A3 E. unfold emsg_box in E.
  match type of E with bind (uint32_to_str ?z) _ = _ => destruct (uint32_to_str z) eqn:E0 end; [|discriminate].
  apply p32_inv in E0. destruct E0 as [B _].
  unfold emsg_payload. rewrite !blen_app, !blen_be32, !blen_bstr.
  change (blen [0;0;0;0]) with 4. change (blen [0]) with 1. lia.
Qed.
Lemma create_scte35_emsg_ok : forall ts a b c d e x, create_scte35_emsg ts a b c d e = Ok x ->
  exists pl, x = enc (Leaf (bstr "emsg") pl) /\ 8 + blen pl < 4294967296.
Proof.
  intros ts a b c d e x H. unfold create_scte35_emsg in H.
  remember (scte35_emsg ts a b c d e) as r eqn:R.
  destruct r as [em|]; [|discriminate]. rewrite bind_Ok in H.
  symmetry in R. apply scte35_emsg_ascii in R. destruct R as (A1 & A2 & A3).
  exists (emsg_payload em). split; [apply emsg_box_enc; tauto|eapply emsg_box_size; eauto].
Qed.

Lemma create_scte35box_shape : forall k n d b, create_scte35box k n d = Ok b ->
  b = [] \/ exists pl, b = enc (Leaf (bstr "emsg") pl).
Proof.
  intros k n d b H. unfold create_scte35box in H.
  destruct ((k <? 1) || (8 <? k)); [left; congruence|].
  destruct n as [n|]; [|discriminate].
  destruct (scte35_event k n d) as [[[s t] ad]|]; [|left; congruence].
  right. eapply create_scte35_emsg_enc; eauto.
Qed.

Lemma scte35box_events : forall p b,
  create_scte35box (mp_scte35 p) (mp_seg_nr p) (mp_seg_duration p) = Ok b ->
  b = encs (events p).
Proof.
  intros p b H. unfold events. rewrite H.
  apply create_scte35box_shape in H. destruct H as [->|(pl & E)]; [reflexivity|].
  destruct b as [|x b].
  - exfalso. assert (X : blen [] = blen (enc (Leaf (bstr "emsg") pl))) by congruence.
    rewrite blen_enc in X by reflexivity. assert (Y := blen_nonneg (body (Leaf (bstr "emsg") pl))).
    change (blen []) with 0 in X. lia.
  - rewrite E. rewrite drop8_leaf by reflexivity. symmetry. apply encs_one.
Qed.

(** ** One lemma per box type: what the method computes on a laid-out payload *)
Definition leaf_result (p : mparams) (t pl : bytes) (st : mstate) (out : bytes) (st1 : mstate) : Prop :=
  out = encs (lf_boxes p t out) /\
  doc_change (req_of p (ms_ttml_size st)) (ms_size_change st) (Leaf t pl) (lf_boxes p t out) (ms_size_change st1) /\
  ms_ttml_size st1 = ms_ttml_size st /\ 0 <= ms_size_change st1.

Lemma ok_pair : forall A B (a c : A) (b d : B), Ok (a, b) = Ok (c, d) -> a = c /\ b = d.
Proof. intros. split; congruence. Qed.
Ltac bind_inv H :=
  match type of H with
  | bind ?x _ = Ok _ =>
      let E := fresh "E" in destruct x eqn:E; cbn [bind] in H; [|discriminate H]
  end.

Lemma mfhd_leaf : forall p pl st out st1, 0 <= ms_size_change st ->
  layout (bstr "mfhd") pl -> process_mfhd p (enc (Leaf (bstr "mfhd") pl)) st = Ok (out, st1) ->
  leaf_result p (bstr "mfhd") pl st out st1.
Proof.
  intros p pl st out st1 HS L H. unfold process_mfhd in H.
  assert (LL : exists vf nr, pl = vf ++ nr /\ blen vf = 4 /\ blen nr = 4).
  { inversion L; subst; eauto; try discriminate. exfalso. apply H0. simpl; auto. }
  destruct LL as (vf & nr & -> & L1 & L2).
  destruct (mp_seg_nr p) as [n|] eqn:EN.
  - bind_inv H. apply p32_inv in E. destruct E as [B ->]. rewrite be32_eq in H.
    apply ok_pair in H. destruct H as [H <-].
    assert (OUT : out = enc (Leaf (bstr "mfhd") (vf ++ be32 n))).
    { rewrite <- H. rewrite !enc_leaf.
      rewrite take_hdr by (try lia; apply hdr_len; reflexivity).
      change (12 - 8) with 4. rewrite (btake_len' 4 vf) by auto.
      rewrite !blen_app, L2, blen_be32, <- !app_assoc. reflexivity. }
    clear H. subst out. unfold leaf_result, lf_boxes.
    change (bytes_eqb (bstr "mfhd") (bstr "sidx")) with false.
    change (bytes_eqb (bstr "mfhd") (bstr "styp")) with false. cbv iota.
    rewrite drop8_leaf by reflexivity. rewrite encs_one. repeat split; auto.
    apply D_mfhd; auto.
  - apply ok_pair in H. destruct H as [<- <-]. unfold leaf_result, lf_boxes.
    change (bytes_eqb (bstr "mfhd") (bstr "sidx")) with false.
    change (bytes_eqb (bstr "mfhd") (bstr "styp")) with false. cbv iota.
    rewrite drop8_leaf by reflexivity. rewrite encs_one. repeat split; auto.
    apply D_mfhd_keep; auto.
Qed.

Lemma simple_leaf : forall p t pl pl' st out st1, blen t = 4 ->
  bytes_eqb t (bstr "sidx") = false -> bytes_eqb t (bstr "styp") = false ->
  out = enc (Leaf t pl') ->
  doc_change (req_of p (ms_ttml_size st)) (ms_size_change st) (Leaf t pl) [Leaf t pl'] (ms_size_change st1) ->
  ms_ttml_size st1 = ms_ttml_size st -> 0 <= ms_size_change st1 ->
  leaf_result p t pl st out st1.
Proof.
  intros. subst out. unfold leaf_result, lf_boxes. rewrite H0, H1.
  rewrite drop8_leaf by auto. rewrite encs_one. auto.
Qed.

Lemma layout_tfdt : forall pl, layout (bstr "tfdt") pl ->
  (exists f t, pl = 0 :: f ++ t /\ blen f = 3 /\ blen t = 4) \/
  (exists v f t, v <> 0 /\ pl = v :: f ++ t /\ blen f = 3 /\ blen t = 8).
Proof.
  intros pl L. inversion L; subst; try discriminate.
  - left. eauto 10.
  - right. exists v, f, t. auto.
  - exfalso. apply H. simpl; auto.
Qed.

Lemma byte8 : forall h v r, blen h = 8 -> byte_at 8 (h ++ v :: r) = Ok v.
Proof.
  intros. unfold byte_at. unfold blen in H.
  rewrite nth_error_app2 by lia. replace (Z.to_nat 8 - List.length h)%nat with O by lia. reflexivity.
Qed.

Lemma tfdt_leaf : forall p pl st out st1, 0 <= ms_size_change st ->
  8 + blen pl < 4294967296 ->
  layout (bstr "tfdt") pl -> bytes_ok pl -> process_tfdt p (enc (Leaf (bstr "tfdt") pl)) st = Ok (out, st1) ->
  leaf_result p (bstr "tfdt") pl st out st1 /\
  exists old, (pl = 0 :: bslice 1 4 pl ++ be32 old \/ pl = btake 4 pl ++ be64 old) /\
              ms_tfdt st1 = Some (old + rq_shift (req_of p None)).
Proof.
  intros p pl st out st1 HS HSZ L OK H. unfold process_tfdt in H. rewrite enc_leaf in H.
  set (hdr := be32 (8 + blen pl) ++ bstr "tfdt") in *.
  assert (HH : blen hdr = 8) by (apply hdr_len; reflexivity).
  change (match mp_timescale p with Some ts => mp_offset p * ts | None => 0 end)
    with (rq_shift (req_of p (ms_ttml_size st))) in H.
  change (rq_shift (req_of p None)) with (rq_shift (req_of p (ms_ttml_size st))).
  set (sh := rq_shift (req_of p (ms_ttml_size st))) in *.
  destruct (layout_tfdt pl L) as [(f & t & E & L1 & L2)|(v & f & t & NV & E & L1 & L2)].
  - assert (OKt : bytes_ok t).
    { rewrite E in OK. inversion OK; subst. apply bytes_ok_app in H3. tauto. }
    destruct (be32_of t OKt L2) as (z & Ez & Bz & Vz).
    assert (LP : blen pl = 8) by (rewrite E, blen_cons, blen_app; lia).
    assert (S1 : bslice 12 16 (hdr ++ pl) = t).
    { rewrite slice_hdr by lia. rewrite E. change (0 :: f ++ t) with ((0 :: f) ++ t).
      replace t with (t ++ []) at 1 by apply app_nil_r.
      apply bslice_len'; rewrite ?blen_cons; lia. }
    assert (S2 : bslice 1 4 pl = f).
    { rewrite E. change (0 :: f ++ t) with ([0] ++ f ++ t). apply bslice_len'; [reflexivity|lia]. }
    rewrite E in H at 1. rewrite byte8 in H by auto. cbn [bind] in H.
    change (0 =? 0) with true in H. cbv iota in H.
    rewrite S1, u32_ok in H by auto. cbn [bind] in H. rewrite Vz in H.
    destruct (Z.ltb_spec (z + sh) 4294967296) as [LT|GE].
    + bind_inv H. apply p32_inv in E0. destruct E0 as [B ->]. rewrite be32_eq in H.
      apply ok_pair in H. destruct H as [H <-].
      split.
      * apply (simple_leaf p _ _ (0 :: f ++ be32 (z + sh))); auto.
        -- rewrite <- H, enc_leaf. rewrite take_hdr by (auto; lia).
           rewrite E. change (0 :: f ++ t) with ((0 :: f) ++ t).
           rewrite (btake_len' (12 - 8)) by (rewrite blen_cons; lia).
           unfold hdr. rewrite LP. rewrite blen_cons, blen_app, blen_be32, L1.
           rewrite <- app_assoc. reflexivity.
        -- rewrite E, Ez. apply D_tfdt0; auto.
      * exists z. split; auto. left. rewrite S2, E, Ez. reflexivity.
    + assert (S3 : btake 4 (hdr ++ pl) = be32 (8 + blen pl)).
      { unfold hdr. rewrite <- app_assoc. apply btake_len'. reflexivity. }
      rewrite S3, u32_ok in H by reflexivity. cbn [bind] in H.
      rewrite be32_val in H by (assert (X := blen_nonneg pl); lia).
      bind_inv H. apply p32_inv in E0. destruct E0 as [B0 ->].
      bind_inv H. apply p64_inv in E0. destruct E0 as [B1 ->].
      rewrite be32_eq, be64_eq in H. apply ok_pair in H. destruct H as [H <-].
      assert (S4 : bslice 4 8 (hdr ++ pl) = bstr "tfdt").
      { unfold hdr. rewrite <- app_assoc. apply bslice_len'; reflexivity. }
      assert (S5 : bslice 9 12 (hdr ++ pl) = f).
      { rewrite slice_hdr by lia. exact S2. }
      rewrite S4, S5 in H. split.
      * apply (simple_leaf p _ _ (1 :: f ++ be64 (z + sh))); auto; [| |cbn; lia].
        -- rewrite <- H, enc_leaf. rewrite LP, blen_cons, blen_app, blen_be64, L1.
           change (8 + 8 + 4) with (8 + (1 + (3 + 8))). rewrite <- !app_assoc. reflexivity.
        -- rewrite E, Ez. apply D_tfdt0_wide; auto; lia.
      * exists z. split; auto. left. rewrite S2, E, Ez. reflexivity.
  - assert (OKt : bytes_ok t).
    { rewrite E in OK. inversion OK; subst. apply bytes_ok_app in H3. tauto. }
    destruct (be64_of t OKt L2) as (z & Ez & Bz & Vz).
    assert (LP : blen pl = 12) by (rewrite E, blen_cons, blen_app; lia).
    assert (S1 : bslice 12 20 (hdr ++ pl) = t).
    { rewrite slice_hdr by lia. rewrite E. change (v :: f ++ t) with ((v :: f) ++ t).
      replace t with (t ++ []) at 1 by apply app_nil_r.
      apply bslice_len'; rewrite ?blen_cons; lia. }
    assert (S2 : btake 4 pl = v :: f).
    { rewrite E. change (v :: f ++ t) with ((v :: f) ++ t). apply btake_len'. rewrite blen_cons. lia. }
    rewrite E in H at 1. rewrite byte8 in H by auto. cbn [bind] in H.
    destruct (Z.eqb_spec v 0); [congruence|].
    rewrite S1, u64_ok in H by auto. cbn [bind] in H. rewrite Vz in H.
    bind_inv H. apply p64_inv in E0. destruct E0 as [B ->]. rewrite be64_eq in H.
    apply ok_pair in H. destruct H as [H <-].
    split.
    + apply (simple_leaf p _ _ (v :: f ++ be64 (z + sh))); auto.
      * rewrite <- H, enc_leaf. rewrite take_hdr by (auto; lia).
        change (12 - 8) with 4. rewrite S2.
        unfold hdr. rewrite LP. rewrite blen_cons, blen_app, blen_be64, L1.
        rewrite <- app_assoc. reflexivity.
      * rewrite E, Ez. apply D_tfdt1; auto.
    + exists z. split; auto. right. rewrite S2, E, Ez. reflexivity.
Qed.

Lemma s32_val : forall o, bytes_ok o -> blen o = 4 ->
  exists z, str_to_sint32 o = Ok z /\ o = s32 z /\ -2147483648 <= z < 2147483648.
Proof.
  intros o OK L. destruct (be32_of o OK L) as (z & E & B & V).
  unfold str_to_sint32. rewrite L. change (4 =? 4) with true. cbv iota. rewrite V.
  destruct (Z.ltb_spec z 2147483648).
  - exists z. repeat split; auto; try lia. unfold s32. rewrite Z.mod_small by lia. auto.
  - exists (z - 4294967296). repeat split; try lia. unfold s32.
    replace ((z - 4294967296) mod 4294967296) with z; auto.
    symmetry. replace (z - 4294967296) with (z + (-1) * 4294967296) by lia.
    rewrite Z.mod_add by lia. apply Z.mod_small. lia.
Qed.
Lemma ps32_inv : forall z b, sint32_to_str z = Ok b -> -2147483648 <= z < 2147483648 /\ b = s32 z.
Proof.
  intros z b. unfold sint32_to_str, s32.
  destruct (Z.leb_spec (-2147483648) z), (Z.ltb_spec z 2147483648); cbn [andb]; intros H1; try discriminate.
  rewrite be32_eq in H1. split; [lia|congruence].
Qed.
Lemma str_to_sint32_len : forall b z, str_to_sint32 b = Ok z -> blen b = 4.
Proof. intros b z. unfold str_to_sint32. destruct (Z.eqb_spec (blen b) 4); auto; discriminate. Qed.
Lemma u32_len : forall b z, str_to_uint32 b = Ok z -> blen b = 4 /\ z = be_val b.
Proof.
  intros b z. unfold str_to_uint32. destruct (Z.eqb_spec (blen b) 4); [|discriminate].
  intros H. split; auto. congruence.
Qed.
Lemma bytes_ok_bslice : forall a z b, bytes_ok b -> bytes_ok (bslice a z b).
Proof. intros. unfold bslice. apply bytes_ok_btake, bytes_ok_bdrop; auto. Qed.
Lemma bslice_split : forall a z b, 0 <= a <= z -> btake a b ++ bslice a z b ++ bdrop z b = b.
Proof.
  intros. unfold bslice.
  replace (bdrop z b) with (bdrop (z - a) (bdrop a b)) by (rewrite bdrop_bdrop by lia; f_equal; lia).
  rewrite btake_drop. apply btake_drop.
Qed.
Lemma blen_full : forall a z b, 0 <= a < z -> blen (bslice a z b) = z - a -> z <= blen b.
Proof.
  intros a z b H L. unfold bslice in L. rewrite blen_btake, blen_bdrop in L by lia.
  assert (X := blen_nonneg b). lia.
Qed.

Definition in_req (p : mparams) (st : mstate) : request := req_of p (ms_ttml_size st).

Lemma trun_leaf : forall p pl st out st1, 0 <= ms_size_change st -> bytes_ok pl ->
  process_trun (enc (Leaf (bstr "trun") pl)) st = Ok (out, st1) ->
  leaf_result p (bstr "trun") pl st out st1.
Proof.
  intros p pl st out st1 HS OK H. unfold process_trun in H. rewrite enc_leaf in H.
  set (hdr := be32 (8 + blen pl) ++ bstr "trun") in *.
  assert (HH : blen hdr = 8) by (apply hdr_len; reflexivity).
  rewrite !slice_hdr in H by (auto; lia).
  change (8 - 8) with 0 in H. change (12 - 8) with 4 in H. change (16 - 8) with 8 in H.
  change (20 - 8) with 12 in H.
  bind_inv H. rename a into vf. apply u32_len in E. destruct E as [LV EV].
  bind_inv H. rename a into cnt. apply u32_len in E. destruct E as [LC EC].
  bind_inv H. rename a into dur. clear E.
  change 1 with (2 ^ 0) in H. rewrite flag_testbit in H by lia.
  assert (L8 : 8 <= blen pl) by (apply (blen_full 4); lia).
  destruct (Z.testbit vf 0 && (0 <? ms_size_change st)) eqn:C.
  - apply andb_prop in C. destruct C as [C1 C2].
    bind_inv H. bind_inv E. rename a0 into o. assert (LO := str_to_sint32_len _ _ E0).
    apply ps32_inv in E. destruct E as [BO ->]. apply ok_pair in H. destruct H as [H <-].
    assert (L12 : 12 <= blen pl) by (apply (blen_full 8); lia).
    destruct (s32_val (bslice 8 12 pl)) as (o' & E1 & E2 & B2);
      [apply bytes_ok_bslice; auto|auto|].
    assert (o' = o) by congruence. subst o'.
    assert (SP : pl = bslice 0 4 pl ++ bslice 4 8 pl ++ s32 o ++ bdrop 12 pl).
    { rewrite <- E2. rewrite bslice_0. rewrite <- (bslice_split 8 12 pl) at 1 by lia.
      rewrite !app_assoc. f_equal. f_equal.
      unfold bslice. replace (8 - 4) with 4 by lia.
      rewrite <- (btake_drop 4 (btake 8 pl)). f_equal.
      - unfold btake. rewrite firstn_firstn. reflexivity.
      - unfold bdrop, btake. rewrite skipn_firstn_comm. reflexivity. }
    apply (simple_leaf p _ _ (bslice 0 4 pl ++ bslice 4 8 pl ++ s32 (o + ms_size_change st) ++ bdrop 12 pl));
      auto.
    + rewrite <- H, enc_leaf. rewrite take_hdr, drop_hdr by (auto; lia).
      change (16 - 8) with 8. change (20 - 8) with 12.
      assert (T8 : btake 8 pl = bslice 0 4 pl ++ bslice 4 8 pl).
      { rewrite SP at 1. rewrite app_assoc. apply btake_len'. rewrite blen_app. lia. }
      rewrite T8. unfold hdr.
      replace (blen (bslice 0 4 pl ++ bslice 4 8 pl ++ s32 (o + ms_size_change st) ++ bdrop 12 pl))
        with (blen pl).
      2:{ rewrite !blen_app, blen_bdrop, LV, LC by lia. unfold s32. rewrite blen_be32. lia. }
      rewrite <- !app_assoc. reflexivity.
    + rewrite SP at 1. apply D_trun_move; auto; [|rewrite <- EV; exact C1]. change (0 < ms_size_change st). lia.
  - cbn [bind] in H. apply ok_pair in H. destruct H as [H <-].
    apply (simple_leaf p _ _ pl); auto.
    + rewrite <- H, enc_leaf. rewrite take_hdr, drop_hdr by (auto; lia).
      change (16 - 8) with 8. change (20 - 8) with 12. unfold hdr. rewrite <- !app_assoc.
      rewrite bslice_split by lia. reflexivity.
    + apply D_trun_keep. rewrite bslice_0 in EV. rewrite <- EV.
      destruct (Z.testbit vf 0); auto. left. cbn [andb] in C. change (ms_size_change st = 0). lia.
Qed.

(** ** saio *)
Lemma saio_loop0 : forall entries pre d r first,
  Forall (fun e => 0 <= e < 4294967296) entries ->
  saio_loop (List.length entries) 4 str_to_uint32 uint32_to_str
    (pre ++ List.concat (map be32 entries)) d (blen pre) = Ok (r, first) ->
  r = List.concat (map (fun e => be32 (e + d)) entries) /\
  Forall (fun e => 0 <= e + d < 4294967296) entries.
Proof.
  induction entries as [|e l IH]; intros pre d r first F H.
  - cbn in H. apply ok_pair in H. destruct H as [<- _]. split; [reflexivity|constructor].
  - cbn [List.length saio_loop map List.concat] in H. inversion F; subst.
    rewrite bslice_mid in H by reflexivity. rewrite u32_ok in H by reflexivity. cbn [bind] in H.
    rewrite be32_val in H by auto. bind_inv H. apply p32_inv in E. destruct E as [B ->].
    replace (pre ++ be32 e ++ List.concat (map be32 l)) with ((pre ++ be32 e) ++ List.concat (map be32 l))
      in H by (symmetry; apply app_assoc).
    replace (blen pre + 4) with (blen (pre ++ be32 e)) in H by (rewrite blen_app, blen_be32; lia).
    bind_inv H. destruct a as [rest f1]. apply IH in E; auto. destruct E as [-> E].
    apply ok_pair in H. destruct H as [<- _]. split; [|constructor; auto].
    cbn [map List.concat]. rewrite be32_eq. reflexivity.
Qed.
Lemma saio_loop1 : forall entries pre d r first,
  Forall (fun e => 0 <= e < 18446744073709551616) entries ->
  saio_loop (List.length entries) 8 str_to_uint64 uint64_to_str
    (pre ++ List.concat (map be64 entries)) d (blen pre) = Ok (r, first) ->
  r = List.concat (map (fun e => be64 (e + d)) entries) /\
  Forall (fun e => 0 <= e + d < 18446744073709551616) entries.
Proof.
  induction entries as [|e l IH]; intros pre d r first F H.
  - cbn in H. apply ok_pair in H. destruct H as [<- _]. split; [reflexivity|constructor].
  - cbn [List.length saio_loop map List.concat] in H. inversion F; subst.
    rewrite bslice_mid in H by reflexivity. rewrite u64_ok in H by reflexivity. cbn [bind] in H.
    rewrite be64_val in H by auto. bind_inv H. apply p64_inv in E. destruct E as [B ->].
    replace (pre ++ be64 e ++ List.concat (map be64 l)) with ((pre ++ be64 e) ++ List.concat (map be64 l))
      in H by (symmetry; apply app_assoc).
    replace (blen pre + 8) with (blen (pre ++ be64 e)) in H by (rewrite blen_app, blen_be64; lia).
    bind_inv H. destruct a as [rest f1]. apply IH in E; auto. destruct E as [-> E].
    apply ok_pair in H. destruct H as [<- _]. split; [|constructor; auto].
    cbn [map List.concat]. rewrite be64_eq. reflexivity.
Qed.

Lemma layout_saio : forall pl, layout (bstr "saio") pl ->
  exists v f aux n rest, pl = (v :: f) ++ aux ++ be32 n ++ rest /\ 0 <= v < 256 /\ blen f = 3 /\
    0 <= n < 4294967296 /\ blen aux = (if Z.testbit (be_val f) 0 then 8 else 0) /\
    ((v = 0 /\ exists es, n = Z.of_nat (List.length es) /\ rest = List.concat (map be32 es) /\
       Forall (fun e => 0 <= e < 4294967296) es) \/
     (v <> 0 /\ exists es, n = Z.of_nat (List.length es) /\ rest = List.concat (map be64 es) /\
       Forall (fun e => 0 <= e < 18446744073709551616) es)).
Proof.
  intros pl L. inversion L; subst; try discriminate.
  - exists 0, f, aux, (Z.of_nat (List.length entries)), (List.concat (map be32 entries)).
    repeat split; auto; try lia. left. eauto.
  - exists v, f, aux, (Z.of_nat (List.length entries)), (List.concat (map be64 entries)).
    repeat split; auto; try lia. right. split; [lia|]. eauto.
  - exfalso. apply H. simpl; auto.
Qed.

Lemma vf_fields : forall v f, 0 <= v < 256 -> blen f = 3 -> bytes_ok f ->
  Z.shiftr (be_val (v :: f)) 24 = v /\ Z.testbit (be_val (v :: f)) 0 = Z.testbit (be_val f) 0.
Proof.
  intros v f Hv Lf OK. change (v :: f) with ([v] ++ f). rewrite be_val_app, Lf.
  change (be_val [v]) with v. change (256 ^ 3) with 16777216.
  assert (B := be_val_bound f OK). rewrite Lf in B. change (256 ^ 3) with 16777216 in B.
  split.
  - rewrite Z.shiftr_div_pow2 by lia. change (2 ^ 24) with 16777216.
    symmetry. apply (Z.div_unique_pos _ _ _ (be_val f)); lia.
  - rewrite !Z.bit0_odd. rewrite Z.odd_add, Z.odd_mul. change (Z.odd 16777216) with false.
    rewrite andb_false_r. destruct (Z.odd (be_val f)); reflexivity.
Qed.

Lemma saio_leaf : forall p pl st out st1, 0 <= ms_size_change st -> bytes_ok pl ->
  layout (bstr "saio") pl ->
  process_saio (enc (Leaf (bstr "saio") pl)) st = Ok (out, st1) ->
  leaf_result p (bstr "saio") pl st out st1.
Proof.
  intros p pl st out st1 HS OK L H. unfold process_saio in H. rewrite enc_leaf in H.
  destruct (layout_saio pl L) as (v & f & aux & n & rest & E & Bv & Lf & Bn & La & K).
  set (hdr := be32 (8 + blen pl) ++ bstr "saio") in *.
  assert (HH : blen hdr = 8) by (apply hdr_len; reflexivity).
  assert (OKf : bytes_ok f).
  { rewrite E in OK. apply bytes_ok_app in OK. destruct OK as [O1 _]. inversion O1; auto. }
  destruct (vf_fields v f Bv Lf OKf) as [VF1 VF2].
  assert (S1 : bslice 8 12 (hdr ++ pl) = v :: f).
  { rewrite slice_hdr by (auto; lia). rewrite E. rewrite bslice_0.
    apply btake_len'. rewrite blen_cons. lia. }
  rewrite S1 in H. rewrite u32_ok in H by (rewrite blen_cons; lia). cbn [bind] in H.
  rewrite VF1 in H. change 1 with (2 ^ 0) in H. rewrite flag_testbit in H by lia. rewrite VF2 in H.
  rewrite <- La in H.
  assert (S2 : bslice (12 + blen aux) (12 + blen aux + 4) (hdr ++ pl) = be32 n).
  { rewrite slice_hdr by (auto; assert (X := blen_nonneg aux); lia). rewrite E.
    replace ((v :: f) ++ aux ++ be32 n ++ rest) with (((v :: f) ++ aux) ++ be32 n ++ rest)
      by (rewrite <- app_assoc; reflexivity).
    apply bslice_len'; rewrite ?blen_app, ?blen_cons, ?blen_be32; lia. }
  rewrite S2, u32_ok in H by reflexivity. cbn [bind] in H. rewrite be32_val in H by auto.
  set (pre := hdr ++ (v :: f) ++ aux ++ be32 n).
  assert (EP : hdr ++ pl = pre ++ rest).
  { unfold pre. rewrite E, <- !app_assoc. reflexivity. }
  assert (LPre : 12 + blen aux + 4 = blen pre).
  { unfold pre. rewrite !blen_app, blen_cons, blen_be32. lia. }
  rewrite EP, LPre in H. rewrite btake_len in H.
  destruct K as [(V0 & es & EN & ER & FE)|(V0 & es & EN & ER & FE)].
  - subst v. change (0 =? 0) with true in H. cbv iota in H. rewrite EN, ER, Nat2Z.id in H.
    bind_inv H. destruct a as [bdy first]. apply saio_loop0 in E0; auto. destruct E0 as [-> FE2].
    apply ok_pair in H. destruct H as [H HST].
    assert (A1 : ms_size_change st1 = ms_size_change st) by (rewrite <- HST; destruct first; reflexivity).
    assert (A2 : ms_ttml_size st1 = ms_ttml_size st) by (rewrite <- HST; destruct first; reflexivity).
    rewrite E, EN, ER.
    apply (simple_leaf p _ _ ((0 :: f ++ aux ++ be32 (Z.of_nat (List.length es))) ++
             List.concat (map (fun e => be32 (e + ms_size_change st)) es))); auto; [| |lia].
    + rewrite <- H, enc_leaf. unfold pre, hdr. rewrite EN, <- !app_assoc. f_equal.
      * f_equal. f_equal. rewrite E, ER, EN. rewrite !blen_app, !blen_cons, !blen_app, !blen_be32.
        assert (X : forall (l : list Z) g, (forall x, blen (g x) = 4) ->
                    blen (List.concat (map g l)) = 4 * Z.of_nat (List.length l)).
        { clear. induction l; intros g Hg; [reflexivity|]. cbn [map List.concat List.length].
          rewrite blen_app, Hg, IHl by auto. lia. }
        rewrite !X by (intros; apply blen_be32). lia.
      * f_equal. cbn [app]. rewrite <- !app_assoc. reflexivity.
    + rewrite A1. replace ((0 :: f) ++ aux ++ be32 (Z.of_nat (List.length es)) ++ List.concat (map be32 es))
        with ((0 :: f ++ aux ++ be32 (Z.of_nat (List.length es))) ++ List.concat (map be32 es))
        by (cbn [app]; rewrite <- !app_assoc; reflexivity).
      apply D_saio0; auto.
      rewrite Forall_forall in *. auto.
  - destruct (Z.eqb_spec v 0); [congruence|]. rewrite EN, ER, Nat2Z.id in H.
    bind_inv H. destruct a as [bdy first]. apply saio_loop1 in E0; auto. destruct E0 as [-> FE2].
    apply ok_pair in H. destruct H as [H HST].
    assert (A1 : ms_size_change st1 = ms_size_change st) by (rewrite <- HST; destruct first; reflexivity).
    assert (A2 : ms_ttml_size st1 = ms_ttml_size st) by (rewrite <- HST; destruct first; reflexivity).
    rewrite E, EN, ER.
    apply (simple_leaf p _ _ ((v :: f ++ aux ++ be32 (Z.of_nat (List.length es))) ++
             List.concat (map (fun e => be64 (e + ms_size_change st)) es))); auto; [| |lia].
    + rewrite <- H, enc_leaf. unfold pre, hdr. rewrite EN, <- !app_assoc. f_equal.
      * f_equal. f_equal. rewrite E, ER, EN. rewrite !blen_app, !blen_cons, !blen_app, !blen_be32.
        assert (X : forall (l : list Z) g, (forall x, blen (g x) = 8) ->
                    blen (List.concat (map g l)) = 8 * Z.of_nat (List.length l)).
        { clear. induction l; intros g Hg; [reflexivity|]. cbn [map List.concat List.length].
          rewrite blen_app, Hg, IHl by auto. lia. }
        rewrite !X by (intros; apply blen_be64). lia.
      * f_equal. cbn [app]. rewrite <- !app_assoc. reflexivity.
    + rewrite A1. replace ((v :: f) ++ aux ++ be32 (Z.of_nat (List.length es)) ++ List.concat (map be64 es))
        with ((v :: f ++ aux ++ be32 (Z.of_nat (List.length es))) ++ List.concat (map be64 es))
        by (cbn [app]; rewrite <- !app_assoc; reflexivity).
      apply D_saio1; auto; [lia|].
      rewrite Forall_forall in *. auto.
Qed.

(** ** styp *)
Definition not_lmsg (b : bytes) : bool := negb (bytes_eqb b (bstr "lmsg")).
Lemma brand_loop_spec : forall brands pre fuel, Forall (fun b => blen b = 4) brands ->
  (List.length brands < fuel)%nat ->
  brand_loop fuel (pre ++ List.concat brands) (blen (pre ++ List.concat brands)) (blen pre)
  = filter not_lmsg brands.
Proof.
  induction brands as [|b l IH]; intros pre fuel F L.
  - destruct fuel; [lia|]. cbn [brand_loop List.concat filter]. rewrite app_nil_r, Z.ltb_irrefl. reflexivity.
  - destruct fuel; [lia|]. inversion F; subst. cbn [brand_loop List.concat filter List.length] in *.
    assert (LT : blen pre <? blen (pre ++ b ++ List.concat l) = true).
    { apply Z.ltb_lt. rewrite !blen_app. assert (X := blen_nonneg (List.concat l)). lia. }
    rewrite LT. rewrite bslice_mid by auto.
    replace (pre ++ b ++ List.concat l) with ((pre ++ b) ++ List.concat l) by (symmetry; apply app_assoc).
    replace (blen pre + 4) with (blen (pre ++ b)) by (rewrite blen_app; lia).
    rewrite IH by (auto; lia). assert (EN : not_lmsg b = negb (bytes_eqb b (bstr "lmsg"))) by reflexivity. rewrite EN. destruct (bytes_eqb b (bstr "lmsg")); reflexivity.
Qed.
Lemma concat4_len : forall l, Forall (fun b => blen b = 4) l ->
  blen (List.concat l) = 4 * Z.of_nat (List.length l).
Proof.
  induction l; intros H; [reflexivity|]. inversion H; subst. cbn [List.concat List.length].
  rewrite blen_app, IHl by auto. lia.
Qed.
Lemma filter_Forall : forall A (P : A -> Prop) f (l : list A), Forall P l -> Forall P (filter f l).
Proof.
  intros. rewrite Forall_forall in *. intros x Hx. apply filter_In in Hx. apply H. tauto.
Qed.

Lemma styp_leaf : forall p pl st out st1, 0 <= ms_size_change st ->
  8 + blen pl < 4294967296 -> layout (bstr "styp") pl ->
  process_styp p (enc (Leaf (bstr "styp") pl)) st = Ok (out, st1) ->
  leaf_result p (bstr "styp") pl st out st1.
Proof.
  intros p pl st out st1 HS HSZ L H. unfold process_styp in H.
  assert (LL : exists brands, pl = List.concat brands /\ Forall (fun b => blen b = 4) brands).
  { inversion L; subst; eauto; try discriminate. exfalso. apply H0. simpl; auto. }
  destruct LL as (brands & -> & F).
  rewrite enc_leaf in H. set (pl := List.concat brands) in *.
  set (hdr := be32 (8 + blen pl) ++ bstr "styp") in *.
  assert (HH : blen hdr = 8) by (apply hdr_len; reflexivity).
  assert (S1 : btake 4 (hdr ++ pl) = be32 (8 + blen pl)).
  { unfold hdr. rewrite <- app_assoc. apply btake_len'. reflexivity. }
  rewrite S1, u32_ok in H by reflexivity. cbn [bind] in H.
  rewrite be32_val in H by (assert (X := blen_nonneg pl); lia).
  replace (8 + blen pl) with (blen (hdr ++ pl)) in H by (rewrite blen_app; lia).
  assert (BL : brand_loop (Z.to_nat (blen (hdr ++ pl))) (hdr ++ pl) (blen (hdr ++ pl)) 8 = filter not_lmsg brands).
  { rewrite <- HH at 1. apply brand_loop_spec; auto. rewrite blen_app. unfold pl.
    rewrite concat4_len by auto. lia. }
  rewrite BL in H. clear BL.
  set (nb := filter not_lmsg brands ++ (if mp_lmsg p then [bstr "lmsg"] else [])) in *.
  assert (NB : (if mp_lmsg p then filter not_lmsg brands ++ [bstr "lmsg"] else filter not_lmsg brands) = nb).
  { unfold nb. destruct (mp_lmsg p); [reflexivity|]. rewrite app_nil_r. reflexivity. }
  rewrite NB in H. clear NB.
  assert (FN : Forall (fun b => blen b = 4) nb).
  { unfold nb. apply Forall_app. split; [apply filter_Forall; auto|]. destruct (mp_lmsg p); auto. }
  rewrite <- concat4_len in H by auto.
  bind_inv H. apply p32_inv in E. destruct E as [B ->]. rewrite be32_eq in H.
  bind_inv H. apply scte35box_events in E. subst a.
  apply ok_pair in H. destruct H as [H <-].
  assert (OUT : out = enc (Leaf (bstr "styp") (List.concat nb)) ++ encs (events p)).
  { rewrite <- H, enc_leaf, <- !app_assoc. reflexivity. }
  assert (LB : lf_boxes p (bstr "styp") out = Leaf (bstr "styp") (List.concat nb) :: events p).
  { unfold lf_boxes. change (bytes_eqb (bstr "styp") (bstr "sidx")) with false.
    change (bytes_eqb (bstr "styp") (bstr "styp")) with true. cbv iota. f_equal. f_equal.
    rewrite OUT, enc_leaf.
    replace (btake 4 _) with (be32 (8 + blen (List.concat nb))).
    2:{ symmetry. rewrite <- !app_assoc. apply btake_len'. reflexivity. }
    rewrite be32_val by auto. rewrite <- app_assoc.
    apply bslice_len'; [|lia]. symmetry. apply hdr_len. reflexivity. }
  unfold leaf_result. rewrite LB. repeat split; auto.
  apply (D_styp (req_of p (ms_ttml_size st)) _ brands nb F); [reflexivity|lia].
Qed.

Lemma sidx_leaf : forall p pl st out st1, 0 <= ms_size_change st ->
  process_sidx (enc (Leaf (bstr "sidx") pl)) st = Ok (out, st1) ->
  leaf_result p (bstr "sidx") pl st out st1.
Proof.
  intros p pl st out st1 HS H. unfold process_sidx in H. apply ok_pair in H. destruct H as [<- <-].
  unfold leaf_result. change (lf_boxes p (bstr "sidx") []) with (@nil box).
  repeat split; auto. constructor.
Qed.

(** ** tfhd *)
Lemma layout_tfhd : forall pl, layout (bstr "tfhd") pl ->
  exists vf track a b c rest, pl = vf ++ track ++ a ++ b ++ c ++ rest /\ blen vf = 4 /\ blen track = 4 /\
    blen a = (if Z.testbit (be_val vf) 1 then 4 else 0) /\
    blen b = (if Z.testbit (be_val vf) 3 then 4 else 0) /\
    blen c = (if Z.testbit (be_val vf) 4 then 4 else 0).
Proof.
  intros pl L. inversion L; subst; try discriminate.
  - exists vf, track, a, b, c, rest. auto 10.
  - exfalso. apply H. simpl; auto 10.
Qed.

Definition default_of (pl : bytes) : option Z :=
  if Z.testbit (be_val (btake 4 pl)) 3
  then let pos := 8 + (if Z.testbit (be_val (btake 4 pl)) 1 then 4 else 0) in
       Some (be_val (bslice pos (pos + 4) pl))
  else None.
Lemma tfhd_leaf : forall p pl st out st1, 0 <= ms_size_change st -> layout (bstr "tfhd") pl ->
  process_tfhd (enc (Leaf (bstr "tfhd") pl)) st = Ok (out, st1) ->
  leaf_result p (bstr "tfhd") pl st out st1 /\
  st1 = match default_of pl with Some d => ms_with_default (Some d) st | None => st end.
Proof.
  intros p pl st out st1 HS L H. unfold process_tfhd in H. rewrite enc_leaf in H.
  destruct (layout_tfhd pl L) as (vf & track & a & b & c & rest & E & LV & LT & LA & LB & LC).
  set (hdr := be32 (8 + blen pl) ++ bstr "tfhd") in *.
  assert (HH : blen hdr = 8) by (apply hdr_len; reflexivity).
  assert (TV : btake 4 pl = vf) by (rewrite E; apply btake_len'; auto).
  assert (S1 : bslice 8 12 (hdr ++ pl) = vf).
  { rewrite slice_hdr by (auto; lia). rewrite bslice_0. auto. }
  rewrite S1, u32_ok in H by auto. cbn [bind] in H.
  assert (FT0 := flag_testbit (be_val vf) 0 ltac:(lia)). change (2 ^ 0) with 1 in FT0.
  assert (FT1 := flag_testbit (be_val vf) 1 ltac:(lia)). change (2 ^ 1) with 2 in FT1.
  assert (FT3 := flag_testbit (be_val vf) 3 ltac:(lia)). change (2 ^ 3) with 8 in FT3.
  assert (FT4 := flag_testbit (be_val vf) 4 ltac:(lia)). change (2 ^ 4) with 16 in FT4.
  rewrite FT0, FT1, FT3, FT4 in H. clear FT0 FT1 FT3 FT4.
  unfold default_of. rewrite TV.
  destruct (Z.testbit (be_val vf) 0); [discriminate|].
  rewrite <- LA in *. set (pos := 16 + blen a) in *.
  bind_inv H. destruct a0 as [pos1 st2].
  assert (NA := blen_nonneg a). assert (NB := blen_nonneg b).
  assert (SB : bslice (8 + blen a) (8 + blen a + blen b) pl = b).
  { rewrite E. replace (vf ++ track ++ a ++ b ++ c ++ rest) with ((vf ++ track ++ a) ++ b ++ c ++ rest)
      by (rewrite <- !app_assoc; reflexivity).
    apply bslice_len'; rewrite ?blen_app; lia. }
  assert (K : pos1 = 16 + blen a + blen b /\
     st2 = match (if Z.testbit (be_val vf) 3 then Some (be_val (bslice (8 + blen a) (8 + blen a + 4) pl)) else None)
           with Some d => ms_with_default (Some d) st | None => st end /\
     (truthy (ms_ttml_size st) = true -> Z.testbit (be_val vf) 3 = true)).
  { destruct (Z.testbit (be_val vf) 3) eqn:B3; cbv iota in LB.
    - bind_inv E0. apply ok_pair in E0. destruct E0 as [<- <-]. apply u32_len in E1. destruct E1 as [_ ->].
      unfold pos. rewrite slice_hdr by (auto; lia).
      replace (16 + blen a - 8) with (8 + blen a) by lia.
      replace (16 + blen a + 4 - 8) with (8 + blen a + 4) by lia. repeat split; auto; try lia.
    - destruct (truthy (ms_ttml_size st)) eqn:TT; [discriminate|].
      apply ok_pair in E0. destruct E0 as [<- <-]. repeat split; auto; try discriminate; unfold pos; lia. }
  destruct K as (-> & EST & KT). rewrite <- EST in *. clear E0.
  assert (ST1 : ms_ttml_size st2 = ms_ttml_size st).
  { rewrite EST. destruct (Z.testbit (be_val vf) 3); reflexivity. }
  assert (ST2 : ms_size_change st2 = ms_size_change st).
  { rewrite EST. destruct (Z.testbit (be_val vf) 3); reflexivity. }
  assert (SAME : st1 = st2 -> out = hdr ++ pl -> (ms_ttml_size st = None \/ ms_ttml_size st = Some 0) ->
     leaf_result p (bstr "tfhd") pl st out st1 /\ st1 = st2).
  { intros -> EO T. split; auto. rewrite EO.
    apply (simple_leaf p _ _ pl); [reflexivity|reflexivity|reflexivity|symmetry; apply enc_leaf| |exact ST1|rewrite ST2; exact HS].
    rewrite ST2. apply D_tfhd. cbn [rq_ttml req_of]. exact T. }
  rewrite ST1 in H. destruct (ms_ttml_size st) as [sz|] eqn:TS.
  - destruct (Z.eqb_spec sz 0) as [->|NZ].
    + apply ok_pair in H. destruct H as [<- <-]. auto.
    + destruct (Z.testbit (be_val vf) 4) eqn:B4; [|discriminate].
      bind_inv H. apply p32_inv in E0. destruct E0 as [B ->]. rewrite be32_eq in H.
      apply ok_pair in H. destruct H as [H <-]. split; auto.
      assert (B3 : Z.testbit (be_val vf) 3 = true).
      { apply KT. cbn [truthy]. destruct (Z.eqb_spec sz 0); auto. }
      rewrite B3 in LB.
      assert (HP : hdr ++ pl = (hdr ++ vf ++ track ++ a ++ b) ++ c ++ rest).
      { rewrite E, <- !app_assoc. reflexivity. }
      rewrite HP in H.
      rewrite btake_len' in H by (rewrite !blen_app; lia).
      replace (16 + blen a + blen b + 4) with (blen (hdr ++ vf ++ track ++ a ++ b) + blen c) in H
        by (rewrite !blen_app; lia).
      rewrite <- bdrop_bdrop, !bdrop_len in H by apply blen_nonneg.
      apply (simple_leaf p _ _ (vf ++ track ++ a ++ b ++ be32 sz ++ rest)); auto; [| | |lia].
      * rewrite <- H, enc_leaf. unfold hdr. rewrite E.
        replace (blen (vf ++ track ++ a ++ b ++ be32 sz ++ rest)) with (blen (vf ++ track ++ a ++ b ++ c ++ rest))
          by (rewrite !blen_app, blen_be32; lia).
        rewrite <- !app_assoc. reflexivity.
      * rewrite ST2, E. apply D_tfhd_ttml; auto; try lia; cbn [rq_ttml req_of]; congruence.
      * congruence.
  - apply ok_pair in H. destruct H as [<- <-]. auto.
Qed.

(** ** All types together *)
Lemma other_leaf : forall p t pl st, blen t = 4 -> ~ In t special -> 0 <= ms_size_change st ->
  leaf_result p t pl st (enc (Leaf t pl)) st.
Proof.
  intros p t pl st L N HS. apply (simple_leaf p t pl pl); auto.
  - destruct (bytes_eqb t (bstr "sidx")) eqn:E; auto. apply bytes_eqb_eq in E. subst t.
    exfalso. apply N. simpl; auto.
  - destruct (bytes_eqb t (bstr "styp")) eqn:E; auto. apply bytes_eqb_eq in E. subst t.
    exfalso. apply N. simpl; auto.
  - apply D_same. auto.
Qed.

Lemma leaf_doc : forall p t pl st out st1, 0 <= ms_size_change st ->
  blen t = 4 -> 8 + blen pl < 4294967296 -> leaf_ok t pl ->
  process_leaf (m_class p) t (enc (Leaf t pl)) st = Ok (out, st1) ->
  leaf_result p t pl st out st1.
Proof.
  intros p t pl st out st1 HS LT HSZ [L OK] H. unfold process_leaf in H.
  destruct (utf8_ok t); [|discriminate]. cbn [fc_method m_class] in H. unfold m_method in H.
  destruct (bytes_eqb t (bstr "styp")) eqn:E1; [apply bytes_eqb_eq in E1; subst t; apply styp_leaf; auto|].
  destruct (bytes_eqb t (bstr "tfhd")) eqn:E2; [apply bytes_eqb_eq in E2; subst t; eapply tfhd_leaf; eauto|].
  destruct (bytes_eqb t (bstr "mfhd")) eqn:E3; [apply bytes_eqb_eq in E3; subst t; apply mfhd_leaf; auto|].
  destruct (bytes_eqb t (bstr "trun")) eqn:E4; [apply bytes_eqb_eq in E4; subst t; apply trun_leaf; auto; apply OK; simpl; auto 10|].
  destruct (bytes_eqb t (bstr "saio")) eqn:E5; [apply bytes_eqb_eq in E5; subst t; apply saio_leaf; auto; apply OK; simpl; auto 10|].
  destruct (bytes_eqb t (bstr "sidx")) eqn:E6; [apply bytes_eqb_eq in E6; subst t; apply sidx_leaf; auto|].
  destruct (bytes_eqb t (bstr "tfdt")) eqn:E7; [apply bytes_eqb_eq in E7; subst t; eapply tfdt_leaf; eauto; apply OK; simpl; auto 10|].
  apply ok_pair in H. destruct H as [<- <-]. apply other_leaf; auto.
  intros I. cbn [special In] in I.
  decompose [or] I; try contradiction; subst t;
    match goal with K : bytes_eqb ?a ?a = false |- _ => rewrite bytes_eqb_refl in K; discriminate end.
Qed.

Lemma lf_doc : forall p t pl st bs st1, 0 <= ms_size_change st ->
  box_ok containers leaf_ok (Leaf t pl) -> lf p t pl st = Ok (bs, st1) ->
  doc_change (req_of p (ms_ttml_size st)) (ms_size_change st) (Leaf t pl) bs (ms_size_change st1) /\
  ms_ttml_size st1 = ms_ttml_size st /\ 0 <= ms_size_change st1.
Proof.
  intros p t pl st bs st1 HS (LT & _ & HSZ & LO) H. unfold lf in H.
  bind_inv H. destruct a as [out st2]. apply ok_pair in H. destruct H as [<- <-].
  apply leaf_doc in E; auto. destruct E as (_ & A & B & C). auto.
Qed.
Lemma lf_leaf : forall p t pl st, 0 <= ms_size_change st -> box_ok containers leaf_ok (Leaf t pl) ->
  process_leaf (m_class p) t (enc (Leaf t pl)) st = enc_res (lf p t pl st).
Proof.
  intros p t pl st HS (LT & _ & HSZ & LO). unfold lf, enc_res.
  destruct (process_leaf (m_class p) t (enc (Leaf t pl)) st) as [[out st1]|e] eqn:E; [|reflexivity].
  cbn [bind]. apply leaf_doc in E; auto. destruct E as [A _]. rewrite <- A. reflexivity.
Qed.

(** ** Trees *)
Scheme doc_change_mind := Induction for doc_change Sort Prop
  with doc_changes_mind := Induction for doc_changes Sort Prop.
Combined Scheme doc_ind from doc_change_mind, doc_changes_mind.

Lemma tr_boxes_doc_ : forall p ks,
  Forall (fun b => forall st bs st1, 0 <= ms_size_change st -> box_ok containers leaf_ok b ->
     tr_box (lf p) b st = Ok (bs, st1) ->
     doc_change (req_of p (ms_ttml_size st)) (ms_size_change st) b bs (ms_size_change st1) /\
     ms_ttml_size st1 = ms_ttml_size st /\ 0 <= ms_size_change st1) ks ->
  forall st bs st1, 0 <= ms_size_change st -> boxes_ok containers leaf_ok ks ->
  tr_boxes (lf p) ks st = Ok (bs, st1) ->
  doc_changes (req_of p (ms_ttml_size st)) (ms_size_change st) ks bs (ms_size_change st1) /\
  ms_ttml_size st1 = ms_ttml_size st /\ 0 <= ms_size_change st1.
Proof.
  intros p ks. induction 1 as [|b l Hb Hl IH]; intros st bs st1 HS OK E; cbn [tr_boxes] in E.
  - apply ok_pair in E. destruct E as [<- <-]. split; [constructor|auto].
  - destruct OK as [O1 O2].
    bind_inv E. destruct a as [a sa]. bind_inv E. destruct a0 as [c sc].
    apply ok_pair in E. destruct E as [<- <-].
    destruct (Hb _ _ _ HS O1 E0) as (A1 & A2 & A3).
    destruct (IH _ _ _ A3 O2 E1) as (B1 & B2 & B3). rewrite A2 in *.
    split; [econstructor; eauto|]. split; auto.
Qed.
Lemma tr_box_doc : forall p b st bs st1, 0 <= ms_size_change st -> box_ok containers leaf_ok b ->
  tr_box (lf p) b st = Ok (bs, st1) ->
  doc_change (req_of p (ms_ttml_size st)) (ms_size_change st) b bs (ms_size_change st1) /\
  ms_ttml_size st1 = ms_ttml_size st /\ 0 <= ms_size_change st1.
Proof.
  intros p. induction b as [t pl|t ks IH] using box_ind2; intros st bs st1 HS OK E.
  - apply (lf_doc p t pl); auto.
  - rewrite tr_node in E. apply box_ok_node in OK. destruct OK as (_ & _ & _ & OK).
    bind_inv E. destruct a as [ks1 sa].
    destruct (Z.ltb_spec (8 + blen (encs ks1)) 4294967296); [|discriminate].
    apply ok_pair in E. destruct E as [<- <-].
    destruct (tr_boxes_doc_ p ks IH _ _ _ HS OK E0) as (A & B & C).
    split; [|auto]. constructor; auto.
Qed.
Lemma tr_boxes_doc : forall p ks st bs st1, 0 <= ms_size_change st -> boxes_ok containers leaf_ok ks ->
  tr_boxes (lf p) ks st = Ok (bs, st1) ->
  doc_changes (req_of p (ms_ttml_size st)) (ms_size_change st) ks bs (ms_size_change st1) /\
  ms_ttml_size st1 = ms_ttml_size st /\ 0 <= ms_size_change st1.
Proof.
  intros p ks. apply tr_boxes_doc_. apply Forall_forall. intros b _ st bs st1. apply tr_box_doc.
Qed.

Lemma tr_tops_doc : forall p l st g st1, 0 <= ms_size_change st -> segment_ok l ->
  tr_tops (m_class p) (lf p) l st = Ok (g, st1) ->
  top_changes (req_of p (ms_ttml_size st)) (ms_size_change st) l (flat_map snd g) (ms_size_change st1) /\
  ms_ttml_size st1 = ms_ttml_size st /\ 0 <= ms_size_change st1.
Proof.
  intros p. induction l as [|b l IH]; intros st g st1 HS OK E; cbn [tr_tops] in E.
  - apply ok_pair in E. destruct E as [<- <-]. split; [constructor|auto].
  - destruct OK as [O1 O2].
    bind_inv E. destruct a as [a sa]. bind_inv E. destruct a0 as [c sc].
    apply ok_pair in E. destruct E as [<- <-]. cbn [flat_map snd].
    unfold tr_top in E0. destruct (bytes_in (btype b) (fc_top (m_class p))) eqn:BI.
    + apply (proj1 (bytes_in_iff _ _)) in BI.
      destruct (tr_box_doc _ _ _ _ _ HS O1 E0) as (A1 & A2 & A3).
      destruct (IH _ _ _ A3 O2 E1) as (B1 & B2 & B3). rewrite A2 in *.
      split; [|auto]. eapply T_in; eauto.
    + apply ok_pair in E0. destruct E0 as [<- <-].
      destruct (IH _ _ _ HS O2 E1) as (B1 & B2 & B3).
      split; [|auto]. apply T_out; auto. intros I. apply (proj2 (bytes_in_iff _ _)) in I.
      change tops with (fc_top (m_class p)) in I. congruence.
Qed.

(** ** Well-formed results *)
Lemma event_ok : forall p, Forall (box_ok containers any_payload) (events p).
Proof.
  intros p. unfold events.
  destruct (create_scte35box (mp_scte35 p) (mp_seg_nr p) (mp_seg_duration p)) as [b|] eqn:E; [|constructor].
  destruct b as [|z b]; [constructor|].
  constructor; [|constructor].
  unfold create_scte35box in E.
  destruct ((mp_scte35 p <? 1) || (8 <? mp_scte35 p)); [discriminate|].
  destruct (mp_seg_nr p) as [n|]; [|discriminate].
  destruct (scte35_event (mp_scte35 p) n (mp_seg_duration p)) as [[[s t] ad]|]; [|discriminate].
  apply create_scte35_emsg_ok in E. destruct E as (pl & E & SZ).
  rewrite E, drop8_leaf by reflexivity.
  split; [reflexivity|]. split; [intros [I|[I|[]]]; discriminate I|]. split; [exact SZ|exact I].
Qed.
