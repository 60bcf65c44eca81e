(** Pointers into a fragment after filtering. *)
From Verif Require Import Base BaseProofs BytesModel BytesProofs Mp4Model Mp4Proofs BoxSpec EmsgModel TtmlModel TimeModel
  MediaModel MediaSpec MediaProofs MediaProofs2 MediaProofs3.
From Coq Require Import ZifyBool ZifyNat.
Open Scope Z_scope.

Lemma Forall2_length : forall A B (R : A -> B -> Prop) a b, Forall2 R a b -> List.length a = List.length b.
Proof. induction 1; cbn [List.length]; auto. Qed.
Lemma s32_inj : forall a b, -2147483648 <= a < 2147483648 -> -2147483648 <= b < 2147483648 ->
  s32 a = s32 b -> a = b.
Proof.
  intros a b A B E. unfold s32 in E. apply (f_equal be_val) in E. rewrite !be32_val in E by (apply Z.mod_pos_bound; lia).
  clear - A B E. Z.to_euclidean_division_equations. lia.
Qed.
Lemma trun_change : forall r d vf cnt o rest k' , blen vf = 4 -> blen cnt = 4 ->
  Z.testbit (be_val vf) 0 = true -> -2147483648 <= o < 2147483648 -> 0 <= d ->
  doc_change r d (Leaf (bstr "trun") (vf ++ cnt ++ s32 o ++ rest)) [k'] d ->
  k' = Leaf (bstr "trun") (vf ++ cnt ++ s32 (o + d) ++ rest) /\ -2147483648 <= o + d < 2147483648.
Proof.
  intros r d vf cnt o rest k' L1 L2 T O D H. inversion H; subst; try discriminate.
  - exfalso. match goal with N : ~ In _ special |- _ => apply N; simpl; auto 10 end.
  - match goal with N : _ \/ _ |- _ => rename N into HN end. destruct HN as [HN|HN].
    + subst d. rewrite Z.add_0_r. auto.
    + exfalso. rewrite <- L1, btake_len in HN. congruence.
  - match goal with E : _ ++ _ = vf ++ _ |- _ => rename E into E1 end.
    apply app_inj_len in E1; [|lia]. destruct E1 as [-> E1].
    apply app_inj_len in E1; [|lia]. destruct E1 as [-> E1].
    change (s32 o0 ++ rest0 = s32 o ++ rest) in E1. apply app_inj_len in E1; [|unfold s32; rewrite !blen_be32; lia]. destruct E1 as [E1 ->].
    apply s32_inj in E1; auto. subst. auto.
Qed.

Lemma concat_inj : forall (g : Z -> bytes) k (R : Z -> Prop), (forall x, blen (g x) = k) ->
  (forall x y, R x -> R y -> g x = g y -> x = y) ->
  forall a b, Forall R a -> Forall R b -> List.length a = List.length b ->
  List.concat (map g a) = List.concat (map g b) -> a = b.
Proof.
  intros g k R G I. induction a as [|x a IH]; intros [|y b] FA FB L H; try discriminate; auto.
  cbn [map List.concat] in H. apply app_inj_len in H; [|rewrite !G; auto]. destruct H as [E H].
  inversion FA; inversion FB; subst. apply I in E; auto. apply IH in H; auto. congruence.
Qed.

Lemma saio_inv : forall pl es, saio_entries pl es ->
  (exists f aux, blen f = 3 /\ blen aux = (if Z.testbit (be_val f) 0 then 8 else 0) /\
    Forall (fun e => 0 <= e < 4294967296) es /\ Z.of_nat (List.length es) < 4294967296 /\
    pl = 0 :: f ++ aux ++ be32 (Z.of_nat (List.length es)) ++ List.concat (map be32 es)) \/
  (exists v f aux, 0 < v < 256 /\ blen f = 3 /\ blen aux = (if Z.testbit (be_val f) 0 then 8 else 0) /\
    Forall (fun e => 0 <= e < 18446744073709551616) es /\ Z.of_nat (List.length es) < 4294967296 /\
    pl = v :: f ++ aux ++ be32 (Z.of_nat (List.length es)) ++ List.concat (map be64 es)).
Proof. intros pl es H. destruct H; [left|right]; eauto 10. Qed.

Lemma saio_change : forall r d pl es k', saio_entries pl es ->
  doc_change r d (Leaf (bstr "saio") pl) [k'] d ->
  exists pl', k' = Leaf (bstr "saio") pl' /\ saio_entries pl' (map (fun e => e + d) es).
Proof.
  intros r d pl es k' SE H. inversion H; subst; try discriminate.
  - exfalso. match goal with N : ~ In _ special |- _ => apply N; simpl; auto 10 end.
  - try subst hd; try subst hd0. rewrite <- map_map with (f := fun e => e + d) (g := be32).
    eexists; split; [reflexivity|].
    match goal with F : Forall _ entries |- _ => rename F into FE end.
    rewrite <- (map_length (fun e => e + d) entries).
    apply saio_inv in SE. destruct SE as [(f' & aux' & A1 & A2 & A3 & A4 & E2)|(v' & f' & aux' & A0 & A1 & A2 & A3 & A4 & E2)].
    + cbn [app] in E2. injection E2 as E2. rewrite <- !app_assoc in E2.
      apply app_inj_len in E2; [|lia]. destruct E2 as [<- E2].
      apply app_inj_len in E2; [|congruence]. destruct E2 as [<- E2].
      change (be32 (Z.of_nat (List.length entries)) ++ List.concat (map be32 entries) =
        be32 (Z.of_nat (List.length es)) ++ List.concat (map be32 es)) in E2.
      assert (LE : List.length entries = List.length es).
      { assert (X := f_equal blen E2). rewrite !blen_app, !blen_be32, !(concat_map_len _ 4) in X by (intros; reflexivity). lia. }
      apply app_inj_len in E2; [|rewrite !blen_be32; auto]. destruct E2 as [_ E2].
      assert (entries = es).
      { apply (concat_inj be32 4 (fun e => 0 <= e < 4294967296)) in E2; auto.
        - intros x y X Y E. apply (f_equal be_val) in E. rewrite !be32_val in E; auto.
        - eapply Forall_impl; [|exact FE]. cbv beta. intuition. }
      subst entries. cbn [app]. rewrite <- !app_assoc. constructor; auto.
      * apply Forall_map. eapply Forall_impl; [|exact FE]. cbv beta. intuition.
      * rewrite map_length. auto.
    + exfalso. cbn [app] in E2. injection E2 as E2 _. lia.
  - try subst hd; try subst hd0. rewrite <- map_map with (f := fun e => e + d) (g := be64).
    eexists; split; [reflexivity|].
    match goal with F : Forall _ entries |- _ => rename F into FE end.
    rewrite <- (map_length (fun e => e + d) entries).
    apply saio_inv in SE. destruct SE as [(f' & aux' & A1 & A2 & A3 & A4 & E2)|(v' & f' & aux' & A0 & A1 & A2 & A3 & A4 & E2)].
    + exfalso. cbn [app] in E2. injection E2 as E2 _. lia.
    + cbn [app] in E2. injection E2 as <- E2. rewrite <- !app_assoc in E2.
      apply app_inj_len in E2; [|lia]. destruct E2 as [<- E2].
      apply app_inj_len in E2; [|congruence]. destruct E2 as [<- E2].
      change (be32 (Z.of_nat (List.length entries)) ++ List.concat (map be64 entries) =
        be32 (Z.of_nat (List.length es)) ++ List.concat (map be64 es)) in E2.
      assert (LE : List.length entries = List.length es).
      { assert (X := f_equal blen E2). rewrite !blen_app, !blen_be32, !(concat_map_len _ 8) in X by (intros; reflexivity). lia. }
      apply app_inj_len in E2; [|rewrite !blen_be32; auto]. destruct E2 as [_ E2].
      assert (entries = es).
      { apply (concat_inj be64 8 (fun e => 0 <= e < 18446744073709551616)) in E2; auto.
        - intros x y X Y E. apply (f_equal be_val) in E. rewrite !be64_val in E; auto.
        - eapply Forall_impl; [|exact FE]. cbv beta. intuition. }
      subst entries. cbn [app]. rewrite <- !app_assoc. constructor; auto.
      * apply Forall_map. eapply Forall_impl; [|exact FE]. cbv beta. intuition.
      * rewrite map_length. auto.
Qed.

Lemma same_change : forall r d t q k', ~ In t special -> doc_change r d (Leaf t q) [k'] d -> k' = Leaf t q.
Proof.
  intros r d t q k' N H. inversion H; subst; auto; exfalso; apply N; simpl; auto 10.
Qed.

Lemma fr_grown : forall r d d' f f' g,
  Forall2 (kid_change r d) (fr_a f) (fr_a f') -> Forall2 (kid_change r d) (fr_k1 f) (fr_k1 f') ->
  Forall2 (kid_change r d') (fr_k2 f) (fr_k2 f') -> Forall2 (kid_change r d') (fr_b f) (fr_b f') ->
  blen (fr_tfdt f') = blen (fr_tfdt f) + g ->
  blen (enc (fr_moof f')) = blen (enc (fr_moof f)) + g /\ fr_pos f' = fr_pos f + g.
Proof.
  intros r d d' f f' g KA K1 K2 KB L. rewrite !fr_size. unfold fr_pos.
  apply kids_len in KA, K1, K2, KB. rewrite KA, K1, K2, KB.
  rewrite !enc_leaf, !blen_app, !blen_be32. split; lia.
Qed.


Lemma grown_exact : forall r d d' f g pre,
  grown r d d' f g -> (Forall (fun b => ~ moof b) pre -> d = 0) ->
  Forall (fun b => ~ moof b) pre \/ too_wide (rq_shift r) (fr_tfdt f) -> d' = g /\ 0 <= d'.
Proof.
  intros r d d' f g pre [(T & -> & ->)|(T & -> & ->)] D0 H; [lia|].
  destruct H as [H|H]; [|contradiction]. rewrite D0 by auto. lia.
Qed.

Lemma C12_data_offset_lem : forall p ts pre f m post u vf cnt o rest v out st,
  segment_ok (seg pre f m post) -> mp_is_ttml p = false -> mp_timescale p = Some ts -> fr_plain f ->
  Forall (fun b => ~ moof b) pre \/ too_wide (mp_offset p * ts) (fr_tfdt f) ->
  fr_k2 f = u ++ Leaf (bstr "trun") (vf ++ cnt ++ s32 o ++ rest) :: v ->
  blen vf = 4 -> blen cnt = 4 -> Z.testbit (be_val vf) 0 = true -> -2147483648 <= o < 2147483648 ->
  blen (enc (fr_moof f)) <= o <= blen (enc (fr_moof f)) + 8 + blen m ->
  media_filter p (encs (seg pre f m post)) = Ok (out, st) ->
  exists A f' B u' v' o',
    out = encs (seg A f' m B) /\ wf_boxes (seg A f' m B) /\
    fr_k2 f' = u' ++ Leaf (bstr "trun") (vf ++ cnt ++ s32 o' ++ rest) :: v' /\
    List.length u' = List.length u /\ -2147483648 <= o' < 2147483648 /\
    bslice (blen (encs A) + o') (blen (encs A) + blen (enc (fr_moof f')) + 8 + blen m) out =
    bslice (blen (encs pre) + o) (blen (encs pre) + blen (enc (fr_moof f)) + 8 + blen m) (encs (seg pre f m post)).
Proof.
  intros p ts pre f m post u vf cnt o rest v out st OK NT TS FP GR EK L1 L2 BT RO PO H.
  unfold seg in *. apply segment_fragment in H; auto.
  destruct H as (A & f' & B & t & g & d & d' & H). cbv zeta in H.
  destruct H as (-> & W & FP' & G & D0 & KA & K1 & K2 & KB & _ & _ & L).
  assert (RS : rq_shift (req_of p None) = mp_offset p * ts) by (cbn [req_of rq_shift]; rewrite TS; auto).
  destruct (grown_exact _ _ _ _ _ pre G D0) as [-> P]; [rewrite RS; auto|].
  destruct (fr_grown _ _ _ _ _ _ KA K1 K2 KB L) as [SZ _].
  rewrite EK in K2. apply Forall2_app_l in K2. destruct K2 as (u' & x' & v' & E' & KU & (KX & _) & KV).
  apply trun_change in KX; auto. destruct KX as [-> RO'].
  exists A, f', B, u', v', (o + g). split; [reflexivity|]. split; [exact W|]. split; [exact E'|].
  split; [symmetry; eapply Forall2_length; eauto|]. split; [exact RO'|].
  rewrite !mdat_bytes by lia. rewrite SZ. f_equal. lia.
Qed.

Lemma C12_saio_lem : forall p ts pre f m post u pl es v out st,
  segment_ok (seg pre f m post) -> mp_is_ttml p = false -> mp_timescale p = Some ts -> fr_plain f ->
  Forall (fun b => ~ moof b) pre \/ too_wide (mp_offset p * ts) (fr_tfdt f) ->
  fr_k2 f = u ++ Leaf (bstr "saio") pl :: v -> saio_entries pl es ->
  media_filter p (encs (seg pre f m post)) = Ok (out, st) ->
  exists A f' B u' pl' es' v',
    out = encs (seg A f' m B) /\ wf_boxes (seg A f' m B) /\
    fr_k2 f' = u' ++ Leaf (bstr "saio") pl' :: v' /\ List.length u' = List.length u /\
    saio_entries pl' es' /\
    Forall2 (fun e e' =>
      (forall x t q y j, fr_k2 f = x ++ Leaf t q :: y -> ~ In t special -> 0 <= j <= 8 + blen q ->
         blen t = 4 -> e = fr_pos f + blen (encs x) + j ->
         bslice (blen (encs A) + e') (blen (encs A) + e' + (8 + blen q - j)) out =
         bslice (blen (encs pre) + e) (blen (encs pre) + e + (8 + blen q - j)) (encs (seg pre f m post))) /\
      (blen (enc (fr_moof f)) <= e <= blen (enc (fr_moof f)) + 8 + blen m ->
         bslice (blen (encs A) + e') (blen (encs A) + blen (enc (fr_moof f')) + 8 + blen m) out =
         bslice (blen (encs pre) + e) (blen (encs pre) + blen (enc (fr_moof f)) + 8 + blen m) (encs (seg pre f m post))))
      es es'.
Proof.
  intros p ts pre f m post u pl es v out st OK NT TS FP GR EK SE H.
  unfold seg in *. apply segment_fragment in H; auto.
  destruct H as (A & f' & B & t & g & d & d' & H). cbv zeta in H.
  destruct H as (-> & W & FP' & G & D0 & KA & K1 & K2 & KB & _ & _ & L).
  assert (RS : rq_shift (req_of p None) = mp_offset p * ts) by (cbn [req_of rq_shift]; rewrite TS; auto).
  destruct (grown_exact _ _ _ _ _ pre G D0) as [-> P]; [rewrite RS; auto|].
  destruct (fr_grown _ _ _ _ _ _ KA K1 K2 KB L) as [SZ PS].
  assert (K2' := K2).
  rewrite EK in K2. apply Forall2_app_l in K2. destruct K2 as (u' & x' & v' & E' & KU & (KX & _) & KV).
  apply (saio_change _ _ _ es) in KX; auto. destruct KX as (pl' & -> & SE').
  exists A, f', B, u', pl', (map (fun e => e + g) es), v'.
  split; [reflexivity|]. split; [exact W|]. split; [exact E'|].
  split; [symmetry; eapply Forall2_length; eauto|]. split; [exact SE'|].
  clear SE SE' E'. induction es as [|e es IH]; constructor; auto. split.
  - intros x t' q y j EX NS J LT ->.
    assert (K3 := K2'). rewrite EX in K3. apply Forall2_app_l in K3.
    destruct K3 as (x' & k' & y' & E3 & KXX & (KS & _) & _).
    apply same_change in KS; auto. subst k'.
    assert (LX := kids_len _ _ _ _ KXX).
    assert (LS : blen (enc (Leaf t' q)) = 8 + blen q) by (rewrite enc_leaf, !blen_app, blen_be32; lia).
    replace (blen (encs A) + (fr_pos f + blen (encs x) + j + g)) with (blen (encs A) + (fr_pos f' + blen (encs x') + j)) by lia.
    replace (blen (encs A) + (fr_pos f' + blen (encs x') + j) + (8 + blen q - j))
      with (blen (encs A) + (fr_pos f' + blen (encs x') + blen (enc (Leaf t' q)))) by lia.
    replace (blen (encs pre) + (fr_pos f + blen (encs x) + j) + (8 + blen q - j))
      with (blen (encs pre) + (fr_pos f + blen (encs x) + blen (enc (Leaf t' q)))) by lia.
    rewrite (kid_bytes A f' _ x' _ y') by (auto; lia). rewrite (kid_bytes pre f _ x _ y) by (auto; lia). reflexivity.
  - intros PO. rewrite !mdat_bytes by lia. rewrite SZ. f_equal. lia.
Qed.
