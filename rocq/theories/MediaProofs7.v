(** Decode times of whole segments, consecutive segments. *)
From Verif Require Import Base BaseProofs BytesModel BytesProofs Mp4Model Mp4Proofs BoxSpec EmsgModel TtmlModel TimeModel
  MediaModel MediaSpec MediaProofs MediaProofs2 MediaProofs3 MediaProofs4 MediaProofs5 MediaProofs6
  ConfigModel ProxyModel ProxySpec ProxyTheory SegmentModel.
From Coq Require Import ZifyBool ZifyNat.
Open Scope Z_scope.

Lemma tfdts_node : forall t ks, tfdts_in (Node t ks) = flat_map tfdts_in ks.
Proof. intros. cbn [tfdts_in]. induction ks; cbn [flat_map]; congruence. Qed.
Definition shifted (s : Z) (a b : bytes) : Prop := exists t, decode_time a t /\ decode_time b (t + s).
Definition no_tfdt (b : box) : Prop := exists pl, b = Leaf (bstr "emsg") pl.

Lemma tfdt_docs : forall r, Forall no_tfdt (rq_events r) ->
  (forall d b bs d', doc_change r d b bs d' -> Forall2 (shifted (rq_shift r)) (tfdts_in b) (flat_map tfdts_in bs)) /\
  (forall d l l' d', doc_changes r d l l' d' -> Forall2 (shifted (rq_shift r)) (flat_map tfdts_in l) (flat_map tfdts_in l')).
Proof.
  intros r EV. apply doc_ind; intros; try (cbn; constructor; fail).
  - cbn [flat_map tfdts_in]. rewrite app_nil_r. destruct (bytes_eqb t (bstr "tfdt")) eqn:E; [|constructor].
    apply bytes_eqb_eq in E. subst. exfalso. apply n. simpl; auto 10.
  - cbn [flat_map tfdts_in]. rewrite flat_nil; [constructor|].
    eapply Forall_impl; [|exact EV]. intros b [pl ->]. reflexivity.
  - cbn [flat_map tfdts_in]. rewrite app_nil_r. change (bytes_eqb (bstr "tfdt") (bstr "tfdt")) with true. cbv iota.
    constructor; [|constructor]. exists t. split; constructor; auto.
  - cbn [flat_map tfdts_in]. rewrite app_nil_r. change (bytes_eqb (bstr "tfdt") (bstr "tfdt")) with true. cbv iota.
    constructor; [|constructor]. exists t. split; constructor; auto; lia.
  - cbn [flat_map tfdts_in]. rewrite app_nil_r. change (bytes_eqb (bstr "tfdt") (bstr "tfdt")) with true. cbv iota.
    constructor; [|constructor]. exists t. split; constructor; auto.
  - cbn [flat_map]. rewrite app_nil_r, !tfdts_node. auto.
  - cbn [flat_map]. rewrite flat_map_app. apply Forall2_app; auto.
Qed.
Lemma tfdt_tops : forall r, Forall no_tfdt (rq_events r) -> forall l d l' d', top_changes r d l l' d' ->
  Forall2 (shifted (rq_shift r)) (tfdts l) (tfdts l').
Proof.
  intros r EV. induction l as [|k l IH]; intros d l' d' H.
  - inversion H; subst. constructor.
  - apply top_changes_cons in H. destruct H as (d1 & x & y & -> & A & K).
    unfold tfdts in *. cbn [flat_map]. rewrite flat_map_app. apply Forall2_app; eauto.
    destruct K as [(_ & K)|(N & -> & _)].
    + destruct k as [t pl|t ks].
      * cbn [top_tfdt]. rewrite flat_nil; [constructor|].
        inversion K; subst; repeat constructor. eapply Forall_impl; [|exact EV]. intros ? [q ->]; auto.
      * assert (K' := K). inversion K; subst. cbn [flat_map top_tfdt]. rewrite app_nil_r.
        destruct (bytes_eqb t (bstr "moof")); [|constructor].
        destruct (tfdt_docs r EV) as [D _]. apply D in K'. cbn [flat_map] in K'. rewrite app_nil_r in K'. exact K'.
    + cbn [flat_map]. rewrite app_nil_r. destruct k as [t pl|t ks]; [constructor|].
      cbn [top_tfdt]. destruct (bytes_eqb t (bstr "moof")) eqn:E; [|constructor].
      apply bytes_eqb_eq in E. subst. exfalso. apply N. simpl; auto.
Qed.
Lemma prepared_tfdts : forall p l, tfdts (prepared p l) = tfdts l.
Proof.
  intros. unfold prepared. destruct (mp_is_ttml p); auto. unfold tfdts. induction l as [|[t pl|t ks] l IH]; [reflexivity| |].
  - cbn [map flat_map retime top_tfdt]. rewrite IH. destruct (bytes_eqb t (bstr "mdat")); reflexivity.
  - cbn [map flat_map retime]. rewrite IH. reflexivity.
Qed.
Lemma decode_times_lem : forall p ts l out st, segment_ok l -> mp_timescale p = Some ts ->
  media_filter p (encs l) = Ok (out, st) ->
  exists l', out = encs l' /\ wf_boxes l' /\
    Forall2 (fun a b => exists t, decode_time a t /\ decode_time b (t + mp_offset p * ts)) (tfdts l) (tfdts l').
Proof.
  intros p ts l out st OK TS H. apply media_filter_boxes in H; auto.
  destruct H as (l1 & l2 & d & k & TC & WX & INS & -> & W). exists l2. split; auto. split; auto.
  change (Forall2 (shifted (mp_offset p * ts)) (tfdts l) (tfdts l2)).
  replace (mp_offset p * ts) with (rq_shift (req_of p (prepared_size p l))) by (cbn [req_of rq_shift]; rewrite TS; auto).
  unfold tfdts at 2. rewrite (inserted_flat _ top_tfdt _ _ _) with (2 := INS).
  - fold (tfdts l1). rewrite <- (prepared_tfdts p l). eapply tfdt_tops; [|exact TC].
    cbn [rq_events req_of]. apply events_leaf.
  - eapply Forall_impl; [|apply extras_leaf]. intros b (t & pl & -> & _). reflexivity.
Qed.

Lemma segment_starts : forall files c r rel sv dflt now l t out,
  files rel (sv_vod sv) (c_ext c) = Ok (encs l) -> segment_ok l -> starts_at l t ->
  filter_media_segment files c r rel sv dflt now = Ok out ->
  exists l', out = encs l' /\ wf_boxes l' /\ starts_at l' (t + sv_offset sv * rep_timescale r).
Proof.
  intros files c r rel sv dflt now l t out FL OK (x & y & EX & DX) H. unfold filter_media_segment in H.
  rewrite FL, bind_Ok in H. bind_inv H. destruct a as [o st]. injection H as ->.
  apply (decode_times_lem _ (rep_timescale r)) in E; auto. destruct E as (l' & -> & W & F).
  exists l'. split; auto. split; auto. rewrite EX in F. inversion F as [|a b u v (t' & A & B) G E1 E2]; subst.
  exists b, v. split; auto. assert (t' = t) by (eapply decode_time_fun; eauto). subst. exact B.
Qed.
