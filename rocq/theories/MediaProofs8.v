(** Well-formed boxes: scanning and tiling; more consequences for C10, C12, C14, C53. *)
From Coq Require Import Lqa ZifyBool ZifyNat.
From Verif Require Import Base BaseProofs BytesModel BytesProofs Mp4Model Mp4Proofs Mp4Term BoxSpec EmsgModel TtmlModel
  TimeModel MediaModel MediaSpec MediaProofs MediaProofs2 MediaProofs3 MediaProofs4 MediaProofs5 MediaProofs6
  MediaProofs7 ConfigModel ProxyModel ProxySpec ProxyTheory SegmentModel.
Open Scope Z_scope.

Lemma enc_head : forall c lk b post, box_ok c lk b ->
  8 <= blen (enc b) /\ be_val (btake 4 (enc b ++ post)) = blen (enc b) /\ bslice 4 8 (enc b ++ post) = btype b.
Proof.
  intros c lk b post H. assert (T := box_ok_type _ _ _ H). assert (S := box_ok_size _ _ _ H).
  assert (K := blen_nonneg (body b)). rewrite blen_enc in * by auto.
  split; [lia|]. rewrite enc_eq, <- !app_assoc. split.
  - rewrite btake_app_l by (rewrite blen_be32; lia). rewrite btake_all by (rewrite blen_be32; lia).
    apply be32_val. lia.
  - rewrite bslice_app_r by (rewrite ?blen_be32; lia). rewrite blen_be32. change (4 - 4) with 0. change (8 - 4) with 4.
    rewrite bslice_0, btake_app_l by lia. apply btake_all. lia.
Qed.
(** The first box of a nonempty well-formed sequence fits. *)
Lemma encs_fit : forall c lk l, boxes_ok c lk l -> l <> [] -> be_val (btake 4 (encs l)) <= blen (encs l).
Proof.
  intros c lk [|b l] H N; [contradiction|]. destruct H as [H _]. cbn [encs].
  destruct (enc_head _ _ _ (encs l) H) as (_ & -> & _). rewrite blen_app. assert (X := blen_nonneg (encs l)). lia.
Qed.

Lemma enc_body : forall b post, blen (btype b) = 4 -> bdrop 8 (btake (blen (enc b)) (enc b ++ post)) = body b.
Proof.
  intros b post T. rewrite btake_len. rewrite enc_eq, app_assoc.
  rewrite bdrop_app_r by (rewrite blen_app, blen_be32; lia). rewrite blen_app, blen_be32, T.
  change (8 - (4 + 4)) with 0. apply bdrop_0.
Qed.

Lemma scan_enc : forall comp c lk, incl comp c -> forall b, box_ok c lk b ->
  forall post, scan comp post -> scan comp (enc b ++ post).
Proof.
  intros comp c lk IC. apply (box_ind2 (fun b => box_ok c lk b -> forall post, scan comp post -> scan comp (enc b ++ post))).
  - intros t p H post SP. assert (T := box_ok_type _ _ _ H). destruct (enc_head _ _ _ post H) as (A & B & C).
    assert (X := blen_nonneg post). apply SC_box with (n := blen (enc (Leaf t p))); auto.
    + rewrite blen_app. lia.
    + lia.
    + rewrite C. intros I. exfalso. apply H. auto.
    + rewrite bdrop_len. auto.
  - intros t ks IH H post SP. assert (T := box_ok_type _ _ _ H). destruct (enc_head _ _ _ post H) as (A & B & C).
    assert (X := blen_nonneg post). apply SC_box with (n := blen (enc (Node t ks))); auto.
    + rewrite blen_app. lia.
    + lia.
    + intros _. rewrite enc_body by auto. cbn [body]. apply box_ok_node in H. destruct H as (_ & _ & _ & H).
      clear - IH H. induction IH as [|k r K R IH2]; cbn [encs].
      * apply SC_short. reflexivity.
      * destruct H as [H1 H2]. apply K; auto.
    + rewrite bdrop_len. auto.
Qed.
Lemma scan_encs : forall comp c lk, incl comp c -> forall l, boxes_ok c lk l -> scan comp (encs l).
Proof.
  intros comp c lk IC. induction l as [|b l IH]; intros H; cbn [encs].
  - apply SC_short. reflexivity.
  - destruct H. eapply scan_enc; eauto.
Qed.
Lemma scan_top_encs : forall top comp c lk, incl comp c -> forall l, boxes_ok c lk l -> scan_top top comp (encs l).
Proof.
  intros top comp c lk IC. induction l as [|b l IH]; intros H; cbn [encs].
  - apply ST_short. reflexivity.
  - destruct H as [H1 H2]. destruct (enc_head _ _ _ (encs l) H1) as (A & B & C).
    assert (X := blen_nonneg (encs l)). apply ST_box with (n := blen (enc b)); auto.
    + rewrite blen_app. lia.
    + lia.
    + intros _ I. assert (T := box_ok_type _ _ _ H1). rewrite enc_body by auto. rewrite C in I.
      destruct b as [t p|t ks].
      * exfalso. apply H1. auto.
      * cbn [body]. apply box_ok_node in H1. eapply scan_encs; eauto. apply H1.
    + rewrite bdrop_len. auto.
Qed.

Lemma filter_stops : forall p data, mp_is_ttml p = false -> scan_top tops containers data ->
  (forall fuel, (enough data <= fuel)%nat ->
     mp4_filter (m_class p) fuel data (m_init p None) = media_filter p data) /\
  media_filter p data <> Err "diverges".
Proof.
  intros p data NT SC. unfold media_filter. rewrite NT, bind_Ok. split.
  - intros fuel F. apply media_filter_stops; auto.
  - apply (media_filter_stops p data (m_init p None) (enough data)); auto.
Qed.
Lemma segment_stops : forall p l, segment_ok l -> media_filter p (encs l) <> Err "diverges".
Proof.
  intros p l OK H.
  assert (IC : incl containers containers) by (intros x; auto).
  assert (IN : incl (@nil bytes) containers) by (intros x []).
  unfold media_filter in H. destruct (mp_is_ttml p) eqn:T.
  - destruct (mdat_loop p (enough (encs l)) (encs l) 0 [] None) as [[data ttml]|e] eqn:E.
    + rewrite bind_Ok in H.
      apply (mdat_loop_tree p l (enough (encs l)) [] [] None) in E; auto; [|unfold enough; lia].
      destruct E as (-> & _ & OK2). cbn [app] in H.
      apply (media_filter_stops p (encs (map (retime p) l)) (m_init p ttml) (enough (encs (map (retime p) l)))); auto.
      eapply scan_top_encs; eauto.
    + cbn [bind] in H. injection H as ->.
      destruct (mdat_loop_stops p (encs l) (encs l) (scan_top_encs [] [] _ _ IN _ OK) (enough (encs l)) (enough (encs l)) 0 [] None)
        as [_ S]; auto; try (unfold enough; lia).
  - rewrite bind_Ok in H. apply (media_filter_stops p (encs l) (m_init p None) (enough (encs l))); auto.
    eapply scan_top_encs; eauto.
Qed.

(** ** Requests and inserted boxes without the model's helpers *)
Lemma documented : forall p l out st, segment_ok l -> mp_is_ttml p = false -> media_filter p (encs l) = Ok (out, st) ->
  exists ev x l1 l2 d,
    top_changes (mk_request (mp_seg_nr p) (match mp_timescale p with Some ts => mp_offset p * ts | None => 0 end)
                   (mp_lmsg p) None ev) 0 l l1 d /\
    inserted x l1 l2 /\ out = encs l2 /\ boxes_ok containers any_payload l2 /\
    Forall (fun b => btype b = bstr "emsg") ev /\ (mp_scte35 p = 0 -> ev = []) /\
    Forall (fun b => btype b = bstr "emsg" /\ mp_emsg_last p = true \/ btype b = bstr "sidx" /\ mp_insert_sidx p = true) x.
Proof.
  intros p l out st OK NT H. apply media_filter_boxes in H; auto.
  destruct H as (l1 & l2 & d & n & TC & _ & INS & E & W).
  unfold prepared, prepared_size in TC. rewrite NT in TC.
  exists (events p), (extras p st n), l1, l2, d.
  split; [exact TC|]. split; [exact INS|]. split; [exact E|]. split; [exact W|]. split; [|split].
  - eapply Forall_impl; [|apply events_leaf]. intros b [pl ->]. reflexivity.
  - intros Z. unfold events. rewrite Z. reflexivity.
  - unfold extras. apply Forall_app. split.
    + destruct (mp_emsg_last p); [constructor; [left; auto|constructor]|constructor].
    + destruct (mp_insert_sidx p); [|constructor].
      destruct (mp_timescale p), (ms_tfdt st), (ms_duration st); constructor; [right; auto|constructor].
Qed.

(** Sizes: the fragment grows by four bytes exactly if the time is too wide. *)
Lemma widening : forall p ts pre f m post out st,
  segment_ok (seg pre f m post) -> mp_is_ttml p = false -> mp_timescale p = Some ts -> fr_plain f ->
  media_filter p (encs (seg pre f m post)) = Ok (out, st) ->
  exists A f' B t, out = encs (seg A f' m B) /\ boxes_ok containers any_payload (seg A f' m B) /\
    decode_time (fr_tfdt f) t /\ decode_time (fr_tfdt f') (t + mp_offset p * ts) /\
    (too_wide (mp_offset p * ts) (fr_tfdt f) ->
       blen (fr_tfdt f) = 8 /\ blen (fr_tfdt f') = 12 /\ blen (enc (fr_moof f')) = blen (enc (fr_moof f)) + 4) /\
    (~ too_wide (mp_offset p * ts) (fr_tfdt f) ->
       blen (fr_tfdt f') = blen (fr_tfdt f) /\ blen (enc (fr_moof f')) = blen (enc (fr_moof f))).
Proof.
  intros p ts pre f m post out st OK NT TS FP H. unfold seg in *.
  apply segment_fragment in H; auto. destruct H as (A & f' & B & t & g & d & d' & H). cbv zeta in H.
  destruct H as (-> & W & FP' & G & D0 & KA & K1 & K2 & KB & DT & DT' & L).
  assert (RS : rq_shift (req_of p None) = mp_offset p * ts) by (cbn [req_of rq_shift]; rewrite TS; auto).
  unfold grown in G. rewrite RS in *.
  destruct (fr_grown _ _ _ _ _ _ KA K1 K2 KB L) as [SZ _].
  exists A, f', B, t. split; [reflexivity|]. split; [exact W|]. split; [exact DT|]. split; [exact DT'|].
  split; intros TW.
  - destruct G as [(_ & -> & ->)|(N & _)]; [|contradiction]. split; [|split; [|exact SZ]].
    + destruct TW as (fl & t0 & LF & _ & -> & _). rewrite blen_cons, blen_app, blen_be32. lia.
    + destruct TW as (fl & t0 & LF & _ & E & _). rewrite L, E, blen_cons, blen_app, blen_be32. lia.
  - destruct G as [(Y & _)|(N & -> & ->)]; [contradiction|]. rewrite SZ, L. split; lia.
Qed.

(** ** The media timeline *)
Lemma continuous : forall files c c2 n t1 t2 s1 s2 r rel d1 d2 now1 now2 (L : Z -> list box) (D dur : Z -> Z) o1 o2,
  wf_cfg c -> wf_cfg c2 -> media_request c n -> media_request c2 (n + 1) ->
  c_seg_dur c2 = c_seg_dur c -> c_vod_n c2 = c_vod_n c -> c_vod_first c2 = c_vod_first c ->
  c_ast c2 = c_ast c -> c_timeoffset c2 = c_timeoffset c -> c_start_nr c2 = c_start_nr c -> c_ext c2 = c_ext c ->
  (forall v, c_vod_first c <= v < c_vod_first c + c_vod_n c ->
     files rel v (c_ext c) = Ok (encs (L v)) /\ segment_ok (L v) /\ starts_at (L v) (D v)) ->
  (forall v, c_vod_first c <= v < c_vod_first c + c_vod_n c - 1 -> D (v + 1) = D v + dur v) ->
  D (c_vod_first c + c_vod_n c - 1) + dur (c_vod_first c + c_vod_n c - 1)
    = D (c_vod_first c) + c_seg_dur c * c_vod_n c * rep_timescale r ->
  get_media c t1 = Ok (Serve s1) -> get_media c2 t2 = Ok (Serve s2) ->
  filter_media_segment files c r rel s1 d1 now1 = Ok o1 ->
  filter_media_segment files c2 r rel s2 d2 now2 = Ok o2 ->
  exists l1 l2 T, o1 = encs l1 /\ o2 = encs l2 /\
    boxes_ok containers any_payload l1 /\ boxes_ok containers any_payload l2 /\
    starts_at l1 T /\ starts_at l2 (T + dur (sv_vod s1)).
Proof.
  intros files c c2 n t1 t2 s1 s2 r rel d1 d2 now1 now2 L D dur o1 o2 W W2 M M2 Ed En Ef Ea Et Es Ee HF HD HW G1 G2 F1 F2.
  destruct (C09_source_segment_pf _ _ _ _ W M G1) as (k1 & V1 & _).
  destruct (C09_source_segment_pf _ _ _ _ W2 M2 G2) as (k2 & V2 & _). rewrite Ef, En in V2.
  destruct (C09_consecutive_pf _ _ _ _ _ _ _ W W2 M M2 Ed En Ef Ea Et Es G1 G2) as (_ & C).
  destruct (HF _ V1) as (A1 & B1 & S1). destruct (HF _ V2) as (A2 & B2 & S2). rewrite <- Ee in A2.
  destruct (segment_starts _ _ _ _ _ _ _ _ _ _ A1 B1 S1 F1) as (l1 & -> & X1 & Y1).
  destruct (segment_starts _ _ _ _ _ _ _ _ _ _ A2 B2 S2 F2) as (l2 & -> & X2 & Y2).
  exists l1, l2, (D (sv_vod s1) + sv_offset s1 * rep_timescale r).
  split; [reflexivity|]. split; [reflexivity|]. split; [exact X1|]. split; [exact X2|]. split; [exact Y1|].
  replace (D (sv_vod s1) + sv_offset s1 * rep_timescale r + dur (sv_vod s1))
    with (D (sv_vod s2) + sv_offset s2 * rep_timescale r); [exact Y2|].
  destruct C as [(E1 & ->)|(E1 & E2 & ->)].
  - rewrite E1, HD by lia. lia.
  - rewrite E1, E2, Z.mul_add_distr_r. lia.
Qed.

(** ** Bytes determine the boxes *)
Lemma enc_inj : forall c lk lk2 b, box_ok c lk b -> forall b2 x y, box_ok c lk2 b2 ->
  enc b ++ x = enc b2 ++ y -> b = b2 /\ x = y.
Proof.
  intros c lk lk2. apply (box_ind2 (fun b => box_ok c lk b -> forall b2 x y, box_ok c lk2 b2 ->
    enc b ++ x = enc b2 ++ y -> b = b2 /\ x = y)).
  - intros t p H b2 x y H2 E.
    destruct (enc_head _ _ _ x H) as (_ & A1 & A2). destruct (enc_head _ _ _ y H2) as (_ & B1 & B2).
    rewrite E in A1, A2. rewrite A1 in B1. rewrite A2 in B2. cbn [btype] in B2.
    apply app_inj_len in E; auto. destruct E as [E ->]. split; auto.
    rewrite !enc_eq in E. apply app_inj_len in E; [|rewrite !blen_be32; auto]. destruct E as [_ E].
    assert (T := box_ok_type _ _ _ H). assert (T2 := box_ok_type _ _ _ H2).
    apply app_inj_len in E; [|lia]. destruct E as [_ E]. cbn [body] in E.
    destruct b2 as [t2 p2|t2 ks]; cbn [btype body] in *; [congruence|].
    exfalso. apply box_ok_node in H2. apply H. clear A1 A2 B1. subst t. apply H2.
  - intros t ks IH H b2 x y H2 E.
    destruct (enc_head _ _ _ x H) as (_ & A1 & A2). destruct (enc_head _ _ _ y H2) as (_ & B1 & B2).
    rewrite E in A1, A2. rewrite A1 in B1. rewrite A2 in B2. cbn [btype] in B2.
    apply app_inj_len in E; auto. destruct E as [E ->]. split; auto.
    rewrite !enc_eq in E. apply app_inj_len in E; [|rewrite !blen_be32; auto]. destruct E as [_ E].
    assert (T := box_ok_type _ _ _ H). assert (T2 := box_ok_type _ _ _ H2).
    apply app_inj_len in E; [|lia]. destruct E as [_ E]. cbn [body] in E.
    destruct b2 as [t2 p2|t2 ks2]; cbn [btype body] in *.
    { exfalso. apply box_ok_node in H. apply H2. clear A1 A2 B1. subst t. apply H. }
    apply box_ok_node in H. apply box_ok_node in H2. destruct H as (_ & _ & _ & H). destruct H2 as (_ & _ & _ & H2).
    clear A1 A2 B1. subst t2. f_equal. clear - IH H H2 E. revert ks2 H2 E.
    induction IH as [|k r K R IH2]; intros [|k2 r2] H2 E; auto.
    + exfalso. destruct H2 as [H2 _]. destruct (enc_head _ _ _ (encs r2) H2) as (A & _).
      apply (f_equal blen) in E. cbn [encs] in E. rewrite blen_app in E. assert (Z := blen_nonneg (encs r2)).
      change (blen []) with 0 in E. lia.
    + exfalso. destruct H as [H _]. destruct (enc_head _ _ _ (encs r) H) as (A & _).
      apply (f_equal blen) in E. cbn [encs] in E. rewrite blen_app in E. assert (Z := blen_nonneg (encs r)).
      change (blen []) with 0 in E. lia.
    + destruct H as [H1 H3]. destruct H2 as [H2 H4]. cbn [encs] in E. apply K in E; auto. destruct E as [-> E].
      f_equal. auto.
Qed.
Lemma encs_inj : forall c lk lk2 l, boxes_ok c lk l -> forall l2, boxes_ok c lk2 l2 -> encs l = encs l2 -> l = l2.
Proof.
  intros c lk lk2. induction l as [|k r IH]; intros H [|k2 r2] H2 E; auto.
  - exfalso. destruct H2 as [H2 _]. destruct (enc_head _ _ _ (encs r2) H2) as (A & _).
    apply (f_equal blen) in E. cbn [encs] in E. rewrite blen_app in E. assert (Z := blen_nonneg (encs r2)).
    change (blen []) with 0 in E. lia.
  - exfalso. destruct H as [H _]. destruct (enc_head _ _ _ (encs r) H) as (A & _).
    apply (f_equal blen) in E. cbn [encs] in E. rewrite blen_app in E. assert (Z := blen_nonneg (encs r)).
    change (blen []) with 0 in E. lia.
  - destruct H as [H1 H3]. destruct H2 as [H2 H4]. cbn [encs] in E. eapply enc_inj in E; eauto. destruct E as [-> E].
    f_equal. auto.
Qed.
