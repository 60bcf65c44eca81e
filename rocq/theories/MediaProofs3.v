(** Consequences of the documented-change relation. *)
From Verif Require Import Base BaseProofs BytesModel BytesProofs Mp4Model Mp4Proofs BoxSpec EmsgModel TtmlModel TimeModel
  MediaModel MediaSpec MediaProofs MediaProofs2.
From Coq Require Import ZifyBool ZifyNat.
Open Scope Z_scope.

Lemma app_inj_len : forall (a b c d : bytes), blen a = blen c -> a ++ b = c ++ d -> a = c /\ b = d.
Proof.
  induction a as [|x a IH]; intros b c d L H; destruct c as [|y c]; rewrite ?blen_cons in L;
    try (change (blen []) with 0 in L).
  - auto.
  - assert (X := blen_nonneg c). lia.
  - assert (X := blen_nonneg a). lia.
  - cbn [app] in H. injection H as -> H. apply IH in H; [|lia]. destruct H as [-> ->]. auto.
Qed.
Lemma doc_changes_app : forall r a b d l' d2, doc_changes r d (a ++ b) l' d2 ->
  exists d1 x y, l' = x ++ y /\ doc_changes r d a x d1 /\ doc_changes r d1 b y d2.
Proof.
  induction a as [|k a IH]; intros b d l' d2 H.
  - exists d, [], l'. repeat split; auto. constructor.
  - cbn [app] in H. inversion H; subst. apply IH in H6. destruct H6 as (d3 & x & y & -> & A & B).
    exists d3, (bs ++ x), y. rewrite app_assoc. repeat split; auto. econstructor; eauto.
Qed.
Lemma doc_changes_cons : forall r k l d l' d2, doc_changes r d (k :: l) l' d2 ->
  exists d1 x y, l' = x ++ y /\ doc_change r d k x d1 /\ doc_changes r d1 l y d2.
Proof. intros. inversion H; subst. exists d1, bs, l'0. auto. Qed.
Lemma top_changes_app : forall r a b d l' d2, top_changes r d (a ++ b) l' d2 ->
  exists d1 x y, l' = x ++ y /\ top_changes r d a x d1 /\ top_changes r d1 b y d2.
Proof.
  induction a as [|k a IH]; intros b d l' d2 H.
  - exists d, [], l'. repeat split; auto. constructor.
  - cbn [app] in H. inversion H; subst.
    + match goal with K : top_changes _ _ (a ++ b) _ _ |- _ => apply IH in K; destruct K as (d3 & x & y & -> & A & B) end.
      exists d3, (bs ++ x), y. rewrite app_assoc. repeat split; auto. eapply T_in; eauto.
    + match goal with K : top_changes _ _ (a ++ b) _ _ |- _ => apply IH in K; destruct K as (d3 & x & y & -> & A & B) end.
      exists d3, (k :: x), y. repeat split; auto. eapply T_out; eauto.
Qed.
Lemma top_changes_cons : forall r k l d l' d2, top_changes r d (k :: l) l' d2 ->
  exists d1 x y, l' = x ++ y /\ top_changes r d1 l y d2 /\
    ((In (btype k) tops /\ doc_change r d k x d1) \/ (~ In (btype k) tops /\ x = [k] /\ d1 = d)).
Proof.
  intros. inversion H; subst.
  - exists d1, bs, l'0. repeat split; auto.
  - exists d, [k], l'0. repeat split; auto.
Qed.

(** ** Boxes whose size does not change *)
Definition kid_change (r : request) (d : Z) (k k' : box) : Prop :=
  doc_change r d k [k'] d /\ btype k' = btype k /\ blen (enc k') = blen (enc k).
Lemma same_len : forall t p p', blen p' = blen p -> blen (enc (Leaf t p')) = blen (enc (Leaf t p)).
Proof. intros. rewrite !enc_leaf, !blen_app, !blen_be32. lia. Qed.
Lemma plain_kid : forall r d k bs d', doc_change r d k bs d' -> plain k ->
  d' = d /\ exists k', bs = [k'] /\ kid_change r d k k'.
Proof.
  intros r d k bs d' H P. assert (H' := H). inversion H; subst; cbn [plain] in P;
    try (exfalso; apply P; simpl; auto; fail); try contradiction;
    (split; [reflexivity|eexists; split; [reflexivity|]; split; [exact H'|split; [reflexivity|]]]);
    try reflexivity; apply same_len; rewrite ?blen_app; unfold s32; rewrite ?blen_be32; try lia.
  - subst hd. rewrite !(concat_map_len _ 4) by (intros; reflexivity). lia.
  - subst hd. rewrite !(concat_map_len _ 8) by (intros; reflexivity). lia.
Qed.
Lemma plain_kids : forall r ks d ks' d', doc_changes r d ks ks' d' -> Forall plain ks ->
  d' = d /\ Forall2 (kid_change r d) ks ks'.
Proof.
  induction ks as [|k ks IH]; intros d ks' d' H F.
  - inversion H; subst. auto.
  - inversion F; subst. apply doc_changes_cons in H. destruct H as (d1 & x & y & -> & A & B).
    apply plain_kid in A; auto. destruct A as (-> & k' & -> & A).
    apply IH in B; auto. destruct B as (-> & B). split; auto. constructor; auto.
Qed.
Lemma kids_len : forall r d a b, Forall2 (kid_change r d) a b -> blen (encs b) = blen (encs a).
Proof.
  induction 1; [reflexivity|]. cbn [encs]. rewrite !blen_app, IHForall2. destruct H as (_ & _ & ->). reflexivity.
Qed.

Lemma tfdt_change : forall r d pl bs d', doc_change r d (Leaf (bstr "tfdt") pl) bs d' ->
  exists pl' t, bs = [Leaf (bstr "tfdt") pl'] /\ decode_time pl t /\ decode_time pl' (t + rq_shift r) /\
    ((too_wide (rq_shift r) pl /\ blen pl' = blen pl + 4 /\ d' = 4) \/
     (~ too_wide (rq_shift r) pl /\ blen pl' = blen pl /\ d' = d)).
Proof.
  intros r d pl bs d' H. inversion H; subst; try discriminate.
  - exfalso. match goal with N : ~ In _ special |- _ => apply N; simpl; auto 10 end.
  - eexists _, t. split; [reflexivity|]. split; [constructor; auto|]. split; [constructor; auto|].
    right. split; [|split; [rewrite !blen_cons, !blen_app, !blen_be32; lia|reflexivity]].
    intros (f' & t' & A & B & E & C). injection E as E. apply app_inj_len in E; [|lia].
    destruct E as [_ E]. apply (f_equal be_val) in E. rewrite !be32_val in E by auto. lia.
  - eexists _, t. split; [reflexivity|]. split; [constructor; auto|]. split; [constructor; auto; lia|].
    left. split; [exists f, t; split; [auto|split; [lia|split; [reflexivity|lia]]]|]. split; [rewrite !blen_cons, !blen_app, blen_be32, blen_be64; lia|reflexivity].
  - eexists _, t. split; [reflexivity|]. split; [constructor; auto|]. split; [constructor; auto|].
    right. split; [|split; [rewrite !blen_cons, !blen_app, !blen_be64; lia|reflexivity]].
    intros (f' & t' & A & B & E & C). congruence.
Qed.

(** ** A whole fragment *)
Definition grown (r : request) (d d' : Z) (f : fragment) (g : Z) : Prop :=
  (too_wide (rq_shift r) (fr_tfdt f) /\ g = 4 /\ d' = 4) \/
  (~ too_wide (rq_shift r) (fr_tfdt f) /\ g = 0 /\ d' = d).
Lemma fragment_change : forall r d f bs d', fr_plain f -> doc_change r d (fr_moof f) bs d' ->
  exists f' t g, bs = [fr_moof f'] /\ fr_plain f' /\ grown r d d' f g /\
    Forall2 (kid_change r d) (fr_a f) (fr_a f') /\ Forall2 (kid_change r d) (fr_k1 f) (fr_k1 f') /\
    Forall2 (kid_change r d') (fr_k2 f) (fr_k2 f') /\ Forall2 (kid_change r d') (fr_b f) (fr_b f') /\
    decode_time (fr_tfdt f) t /\ decode_time (fr_tfdt f') (t + rq_shift r) /\
    blen (fr_tfdt f') = blen (fr_tfdt f) + g.
Proof.
  intros r d f bs d' (PA & P1 & P2 & PB) H. unfold fr_moof in H. inversion H; subst.
  match goal with K : doc_changes _ _ _ _ _ |- _ => rename K into HK end.
  apply doc_changes_app in HK. destruct HK as (d1 & a' & y & -> & CA & CY).
  apply plain_kids in CA; auto. destruct CA as (-> & CA).
  apply doc_changes_cons in CY. destruct CY as (d2 & tr & b' & -> & CT & CB).
  inversion CT; subst.
  match goal with K : doc_changes _ _ (fr_k1 f ++ _) _ _ |- _ => rename K into HK end.
  apply doc_changes_app in HK. destruct HK as (d3 & k1' & y & -> & C1 & CY).
  apply plain_kids in C1; auto. destruct C1 as (-> & C1).
  apply doc_changes_cons in CY. destruct CY as (d4 & tf & k2' & -> & CF & C2).
  apply tfdt_change in CF. destruct CF as (pl' & t & -> & D1 & D2 & G).
  apply plain_kids in C2; auto. destruct C2 as (-> & C2).
  apply plain_kids in CB; auto. destruct CB as (-> & CB).
  assert (PL : forall dd x y, Forall2 (kid_change r dd) x y -> Forall plain x -> Forall plain y).
  { clear. induction 1; intros P; auto. inversion P; subst. constructor; auto.
    destruct H as (A & B & _). destruct x as [tx px|tx kx]; [|contradiction].
    destruct y as [ty py|ty ky]; cbn [btype plain] in *; [congruence|].
    inversion A. }
  exists (mk_fragment a' k1' pl' k2' b'), t, (blen pl' - blen (fr_tfdt f)).
  split; [reflexivity|]. split; [repeat split; eauto|].
  split; [destruct G as [(G1 & G2 & G3)|(G1 & G2 & G3)]; [left|right]; repeat split; auto; lia|].
  repeat split; auto. cbn [fr_tfdt]. lia.
Qed.

(** ** In a whole segment *)
Lemma top_no_moof : forall r l d l' d', top_changes r d l l' d' -> segment_ok l ->
  Forall (fun b => ~ moof b) l -> d' = d.
Proof.
  induction l as [|b l IH]; intros d l' d' H OK F.
  - inversion H; subst; auto.
  - apply top_changes_cons in H. destruct H as (d1 & x & y & -> & T & K).
    destruct OK as [O1 O2]. inversion F; subst.
    apply IH in T; auto. subst d'.
    destruct K as [(I1 & D)|(_ & _ & E)]; auto.
    destruct b as [t pl|t ks].
    + cbn [btype] in I1. inversion D; subst; auto;
        exfalso; cbn [tops In] in I1; decompose [or] I1; try contradiction; discriminate.
    + apply box_ok_node in O1. destruct O1 as (_ & I2 & _).
      cbn [btype tops In] in I1. unfold moof in *. cbn [btype] in *.
      destruct I2 as [I2|[I2|[]]].
      * exfalso. auto.
      * exfalso. subst t. decompose [or] I1; try contradiction; discriminate.
Qed.

Lemma inserted_adjacent : forall x X M D Y l2, moof M -> ~ moof D -> inserted x (X ++ M :: D :: Y) l2 ->
  exists A B, l2 = A ++ M :: D :: B.
Proof.
  intros x X M D Y l2 HM HD [(a & m & b & E & Hm & Hb & ->)|(F & ->)].
  - apply app_eq_app in E. destruct E as (l & [(E1 & E2)|(E1 & E2)]).
    + destruct l as [|k l]; cbn [app] in E2.
      * injection E2 as -> ->. rewrite app_nil_r in E1. subst a. exists (X ++ x), Y.
        rewrite <- app_assoc. auto.
      * injection E2 as <- E2. exfalso. rewrite E2 in Hb. apply Forall_app in Hb. destruct Hb as [_ Hb].
        inversion Hb; subst. auto.
    + subst a. destruct l as [|k l]; cbn [app] in E2.
      * injection E2 as <- <-. exists (X ++ x), Y. rewrite app_nil_r, <- app_assoc. auto.
      * injection E2 as <- E2. destruct l as [|k2 l]; cbn [app] in E2.
        { injection E2 as <- <-. contradiction. }
        { injection E2 as <- E2. exists X, (l ++ x ++ m :: b). rewrite <- app_assoc. auto. }
  - exfalso. apply Forall_app in F. destruct F as [_ F]. inversion F; subst. auto.
Qed.

Lemma mdat_change : forall r d m x d', doc_change r d (Leaf (bstr "mdat") m) x d' ->
  x = [Leaf (bstr "mdat") m] /\ d' = d.
Proof. intros r d m x d' H. inversion H; subst; try discriminate; auto. Qed.

Lemma segment_fragment : forall p pre f m post out st,
  segment_ok (pre ++ fr_moof f :: Leaf (bstr "mdat") m :: post) -> mp_is_ttml p = false -> fr_plain f ->
  media_filter p (encs (pre ++ fr_moof f :: Leaf (bstr "mdat") m :: post)) = Ok (out, st) ->
  exists A f' B t g d d', let r := req_of p None in
    out = encs (A ++ fr_moof f' :: Leaf (bstr "mdat") m :: B) /\
    wf_boxes (A ++ fr_moof f' :: Leaf (bstr "mdat") m :: B) /\ fr_plain f' /\
    grown r d d' f g /\ (Forall (fun b => ~ moof b) pre -> d = 0) /\
    Forall2 (kid_change r d) (fr_a f) (fr_a f') /\ Forall2 (kid_change r d) (fr_k1 f) (fr_k1 f') /\
    Forall2 (kid_change r d') (fr_k2 f) (fr_k2 f') /\ Forall2 (kid_change r d') (fr_b f) (fr_b f') /\
    decode_time (fr_tfdt f) t /\ decode_time (fr_tfdt f') (t + rq_shift r) /\
    blen (fr_tfdt f') = blen (fr_tfdt f) + g.
Proof.
  intros p pre f m post out st OK NT FP H.
  apply media_filter_boxes in H; auto. destruct H as (l1 & l2 & dd & n & T & WX & INS & -> & W2).
  unfold prepared, prepared_size in T. rewrite NT in T.
  apply top_changes_app in T. destruct T as (d & A & y & -> & TP & T).
  apply top_changes_cons in T. destruct T as (d' & x & y2 & -> & T & K).
  destruct K as [(_ & K)|(K & _)]; [|exfalso; apply K; simpl; auto].
  apply top_changes_cons in T. destruct T as (d2 & x2 & B & -> & T & K2).
  destruct K2 as [(_ & K2)|(K2 & _)]; [|exfalso; apply K2; simpl; auto].
  apply mdat_change in K2. destruct K2 as [-> ->].
  apply fragment_change in K; auto.
  destruct K as (f' & t & g & -> & FP' & G & KA & K1 & K2 & KB & D1 & D2 & L).
  cbn [app] in INS.
  assert (ND : ~ moof (Leaf (bstr "mdat") m)) by (unfold moof; cbn [btype]; discriminate).
  destruct (inserted_adjacent _ _ _ _ _ _ (eq_refl : moof (fr_moof f')) ND INS) as (A' & B' & ->).
  exists A', f', B', t, g, d, d'. cbv zeta.
  split; [reflexivity|]. split; [exact W2|]. split; [exact FP'|]. split; [exact G|].
  split; [|auto 10].
  intros F. apply (proj1 (boxes_ok_app _ _ _ _)) in OK. destruct OK as [OK _].
  apply (top_no_moof _ _ _ _ _ TP); auto.
Qed.

(** ** Positions *)
Lemma Forall2_app_l : forall A (R : A -> A -> Prop) a x b l, Forall2 R (a ++ x :: b) l ->
  exists a' x' b', l = a' ++ x' :: b' /\ Forall2 R a a' /\ R x x' /\ Forall2 R b b'.
Proof.
  intros A R a x b l H. apply Forall2_app_inv_l in H. destruct H as (a' & r & H1 & H2 & ->).
  inversion H2; subst. eauto 10.
Qed.

Lemma fr_size : forall f, blen (enc (fr_moof f)) =
  16 + blen (encs (fr_a f)) + blen (encs (fr_k1 f)) + blen (enc (Leaf (bstr "tfdt") (fr_tfdt f)))
  + blen (encs (fr_k2 f)) + blen (encs (fr_b f)).
Proof.
  intros. unfold fr_moof. rewrite blen_enc by reflexivity. cbn [body].
  rewrite encs_app. cbn [encs]. rewrite !blen_app. rewrite blen_enc by reflexivity. cbn [body].
  rewrite encs_app. cbn [encs]. rewrite !blen_app. lia.
Qed.
Lemma fr_bytes_k2 : forall f u s v, fr_k2 f = u ++ s :: v -> exists h t,
  enc (fr_moof f) = h ++ enc s ++ t /\ blen h = fr_pos f + blen (encs u).
Proof.
  intros f u s v E. unfold fr_moof. rewrite enc_node, encs_app. cbn [encs]. rewrite enc_node, encs_app, E.
  cbn [encs]. rewrite encs_app. cbn [encs].
  eexists (be32 _ ++ bstr "moof" ++ encs (fr_a f) ++ be32 _ ++ bstr "traf" ++ encs (fr_k1 f) ++
           enc (Leaf (bstr "tfdt") (fr_tfdt f)) ++ encs u), (encs v ++ encs (fr_b f)).
  split; [rewrite <- !app_assoc; reflexivity|].
  rewrite !blen_app, !blen_be32. unfold fr_pos. change (blen (bstr "moof")) with 4.
  change (blen (bstr "traf")) with 4. lia.
Qed.

(** bytes at [o] counted from the moof, up to the end of the mdat that follows *)
Lemma mdat_bytes : forall A f m B o, blen (enc (fr_moof f)) <= o <= blen (enc (fr_moof f)) + 8 + blen m ->
  bslice (blen (encs A) + o) (blen (encs A) + blen (enc (fr_moof f)) + 8 + blen m)
         (encs (A ++ fr_moof f :: Leaf (bstr "mdat") m :: B))
  = bdrop (o - blen (enc (fr_moof f))) (enc (Leaf (bstr "mdat") m)).
Proof.
  intros A f m B o H. rewrite encs_app. cbn [encs].
  set (M := enc (fr_moof f)) in *. set (D := enc (Leaf (bstr "mdat") m)).
  assert (LD : blen D = 8 + blen m) by (unfold D; rewrite enc_leaf, !blen_app, blen_be32; reflexivity).
  rewrite !app_assoc. rewrite <- (app_assoc _ D).
  unfold bslice. rewrite bdrop_app_r by (rewrite blen_app; lia).
  rewrite blen_app. replace (blen (encs A) + o - (blen (encs A) + blen M)) with (o - blen M) by lia.
  rewrite bdrop_app_l by lia.
  replace (blen (encs A) + blen M + 8 + blen m - (blen (encs A) + o)) with (blen (bdrop (o - blen M) D)).
  2:{ rewrite blen_bdrop by lia. lia. }
  apply btake_len.
Qed.
Lemma kid_bytes : forall A f l u s v j, fr_k2 f = u ++ s :: v -> 0 <= j <= blen (enc s) ->
  bslice (blen (encs A) + (fr_pos f + blen (encs u) + j))
         (blen (encs A) + (fr_pos f + blen (encs u) + blen (enc s)))
         (encs (A ++ fr_moof f :: l))
  = bdrop j (enc s).
Proof.
  intros A f l u s v j E H. destruct (fr_bytes_k2 f u s v E) as (h & t & EM & L).
  rewrite encs_app. cbn [encs]. rewrite EM. rewrite <- !app_assoc. rewrite (app_assoc (encs A)).
  unfold bslice. rewrite bdrop_app_r by (rewrite blen_app; lia).
  rewrite blen_app, L.
  replace (blen (encs A) + (fr_pos f + blen (encs u) + j) - (blen (encs A) + (fr_pos f + blen (encs u)))) with j by lia.
  rewrite bdrop_app_l by lia.
  replace (blen (encs A) + (fr_pos f + blen (encs u) + blen (enc s)) - (blen (encs A) + (fr_pos f + blen (encs u) + j)))
    with (blen (bdrop j (enc s))) by (rewrite blen_bdrop by lia; lia).
  apply btake_len.
Qed.
