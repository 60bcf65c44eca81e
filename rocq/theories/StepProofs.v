(** Proofs for C75. *)
From Coq Require Import Permutation ZifyBool ZifyNat.
From Verif Require Import Base BaseProofs BytesModel BytesProofs StrModel BoxSpec Mp4Model Mp4Proofs ConfigModel ConfigProofs SessionProofs
  ProxyModel ProxySpec ProxyProofs ConfigTheory MediaModel MediaSpec MediaProofs MediaProofs2 MediaProofs3 MediaProofs4 MediaProofs5 MediaTheory
  SegmentModel HttpModel HttpSpec HttpProofs EndSpec EndTheory PlayerProofs MediaProofs6 InitModel VodModel VodSpec VodProofs VodProofs2 VodProofs3 VodTheory StepSpec.
Local Open Scope string_scope.
Open Scope Z_scope.

(** ** The content behind a configuration *)
Lemma finish_reps : forall now parts pos v u c, 0 < v_dur v -> finish_url now parts pos v u = Ok c ->
  exists l, update_with_reps (u_cfg u) v parts pos = Ok (set_reps l (u_cfg u)) /\ c_reps c = l.
Proof.
  intros now parts pos v u c Hd H.
  destruct (finish_url_stages _ _ _ _ _ _ H) as (l & c1 & c2 & c3 & c4 & p & H0 & H1 & H2 & H3 & H4 & ->).
  exists l. split; [exact H0|].
  destruct (vod_keeps l u v) as (B0 & _ & R0).
  set (c0 := update_with_vodcfg (set_reps l (u_cfg u)) v) in *.
  assert (D0 : 0 < c_seg_dur c0) by (destruct B0 as (b1 & _); lia).
  assert (K1 : keeps c0 c1).
  { destruct (u_start u) as [s|]; [|injection H1 as <-; apply keeps_refl].
    destruct (u_mod u); [discriminate|]. destruct (start_time_fields _ _ _ _ _ _ D0 H1) as (K & _). exact K. }
  assert (K2 : keeps c1 c2).
  { destruct (c_tfdt32 c1); [|injection H2 as <-; apply keeps_refl].
    destruct (u_cont u); [discriminate|]. destruct (tfdt32_fields _ _ _ H2) as (K & _). exact K. }
  assert (K02 := keeps_trans _ _ _ K1 K2).
  assert (D2 : 0 < c_seg_dur c2) by (destruct K02 as (k & _); lia).
  assert (K3 : keeps c2 c3).
  { destruct (u_cont u); [|injection H3 as <-; apply keeps_refl]. destruct (cont_fields _ _ _ D2 H3) as (K & _). exact K. }
  assert (K4 : keeps c3 c4).
  { destruct (u_mod u); [|injection H4 as <-; apply keeps_refl].
    destruct (modulo_fields _ _ _ _ H4) as (x & _ & K & _). exact K. }
  assert (K04 := keeps_trans _ _ _ (keeps_trans _ _ _ K02 K3) K4).
  destruct (finish_tail_fields u p c4) as (K5 & _).
  destruct (keeps_trans _ _ _ K04 K5) as (_&_&_&_&_&_&_&_&_&_&_&_&_&k14&_). rewrite k14. exact R0.
Qed.
Lemma lookup_in : forall v rs l rep, lookup_reps v rs = Ok l -> In rep l ->
  exists m, content_type_for_rep (v_media v) (rep_id rep) = Some (rep_type rep, m) /\ rep_timescale rep = m_timescale m.
Proof.
  intros v. induction rs as [|r rs IH]; intros l rep H I; cbn [lookup_reps] in H; [injection H as <-; destruct I|].
  destruct (content_type_for_rep (v_media v) r) as [(ct & m)|] eqn:E; [|discriminate].
  apply bind_ok in H. destruct H as (l' & H & K). injection K as <-. destruct I as [<-|I]; [|eapply IH; eauto].
  exists m. split; [exact E|reflexivity].
Qed.
Lemma provider_content : forall s r now c, site_ok s -> provider_config s r now = Ok c ->
  exists v, st_vod s (c_content_name c) = Ok v /\ c_seg_dur c = v_dur v /\ c_vod_n c = v_n v /\ c_vod_first c = v_first v /\
    forall rep, In rep (c_reps c) ->
      exists m, content_type_for_rep (v_media v) (rep_id rep) = Some (rep_type rep, m) /\ rep_timescale rep = m_timescale m.
Proof.
  intros s r now c S H. unfold provider_config in H.
  destruct (path_parts r) as [|p0 [|first parts]]; try discriminate.
  unfold process_url in H. set (base := _ ++ _) in H. clearbody base.
  apply bind_ok in H. destruct H as ((u & pos) & HL & H).
  assert (U : untouched (u_cfg u)) by (eapply url_loop_untouched; [|exact HL]; repeat split).
  apply bind_ok in H. destruct H as (c0 & HD & H). cbv zeta in H.
  assert (U0 : untouched c0).
  { unfold update_with_filedata in HD. apply bind_ok in HD. destruct HD as (nm & _ & HD).
    apply bind_ok in HD. destruct HD as (fn & _ & HD). injection HD as <-. exact U. }
  apply bind_ok in H. destruct H as (v & HV & H). destruct (S _ _ HV) as (D & N).
  destruct U0 as (_ & _ & _ & _ & U5 & _ & U7).
  destruct (finish_url_wf _ _ _ _ (u_setcfg (fun _ => c0) u) _ D N U5 H) as (W & B).
  destruct B as (b1 & b2 & b3 & _). destruct (finish_reps _ _ _ _ _ _ D H) as (l & R & RL).
  rewrite finish_split in H. rewrite R in H. cbn [bind] in H.
  assert (NM : c_content_name c = c_content_name c0) by (rewrite (tail_name _ _ _ _ _ H); reflexivity).
  exists v. rewrite NM. split; [exact HV|]. split; [exact b1|]. split; [exact b2|]. split; [exact b3|].
  intros rep I. rewrite RL in I. unfold update_with_reps in R. destruct (Nat.ltb _ _).
  - apply bind_ok in R. destruct R as (x & _ & R). apply bind_ok in R. destruct R as (y & Y & R). injection R as <-.
    eapply lookup_in; [exact Y|exact I].
  - injection R as <-. destruct I.
Qed.

(** ** What the analyzer measures *)
Lemma timed_spans : forall default l t d s e, segment_ok l -> spans default l t d ->
  timed default (encs l) s e -> s = t /\ e = d.
Proof.
  intros default l t d s e OK (pre & f & m & h & r & dd & -> & FP & OR & D & TD & TT) (out & st & H & T1 & T2).
  set (p := plain_params default) in *.
  apply media_filter_run in H; auto. destruct H as (_ & g & R & _).
  unfold run, prepared, prepared_size in R. change (mp_is_ttml p) with false in R. cbv iota in R.
  assert (HS : 0 <= ms_size_change (m_init p None)) by (cbn; lia).
  assert (NM : Forall (fun b => ~ moof b) pre).
  { eapply Forall_impl; [|exact FP]. cbv beta. unfold moof. intros b N E. apply N. rewrite E. simpl; auto. }
  unfold MediaSpec.seg in *.
  apply (proj1 (boxes_ok_app _ _ _ _)) in OK. destruct OK as [OKp [OKm _]].
  apply tr_tops_app in R. destruct R as (x & y & s1 & A1 & A2 & _).
  assert (Z1 := tops_inv _ _ _ _ _ OKp A1 HS).
  assert (S1 := quiet_tops _ _ _ _ _ OKp NM A1). destruct S1 as (_ & _ & S1).
  cbn [tr_tops] in A2. bind_inv A2. destruct a as [a sa]. bind_inv A2. destruct a0 as [b sb].
  apply ok_pair in A2. destruct A2 as [_ ->].
  bind_inv E0. destruct a0 as [c sc]. rewrite ?bind_Ok in E0. apply ok_pair in E0. destruct E0 as [_ ->].
  assert (Q : same3 sa st).
  { change (tr_top (m_class p) (lf p) (Leaf (bstr "mdat") m) sa) with (lf p (bstr "mdat") m sa) in E1.
    apply lf_quiet in E1; auto. cbn [In]. intuition discriminate. }
  change (tr_top (m_class p) (lf p) (fr_moof f) s1) with (tr_box (lf p) (fr_moof f) s1) in E.
  assert (MS : ms_tfdt sa = Some (t + rq_shift (req_of p None)) /\ ms_duration sa = Some d).
  { eapply moof_state; eauto. rewrite S1. exact TD. }
  destruct Q as (Q1 & Q2 & _). destruct MS as [M1 M2].
  change (rq_shift (req_of p None)) with 0 in M1. split; congruence || (assert (Some s = Some (t + 0)) by congruence; assert (s = t + 0) by congruence; lia).
Qed.

(** ** Filtering keeps the duration *)
Lemma kid_tfhd : forall r d h k, rq_ttml r = None -> kid_change r d (Leaf (bstr "tfhd") h) k -> k = Leaf (bstr "tfhd") h.
Proof.
  intros r d h k T (K & _). remember (Leaf (bstr "tfhd") h) as b. remember [k] as bs. revert Heqb Heqbs.
  destruct K; intros E E2; try discriminate; try congruence.
Qed.
Lemma app_cut : forall (a b c d : bytes), blen a = blen b -> (a ++ c)%list = (b ++ d)%list -> a = b /\ c = d.
Proof. intros a b c d. apply app_inj_len. Qed.
Lemma trun_moved : forall dd vf cnt o o' rest d, blen vf = 4 -> blen cnt = 4 -> Z.testbit (be_val vf) 0 = true ->
  trun_total dd (vf ++ cnt ++ s32 o ++ rest)%list d -> trun_total dd (vf ++ cnt ++ s32 o' ++ rest)%list d.
Proof.
  intros dd vf cnt o o' rest d V C B T. remember (vf ++ cnt ++ s32 o ++ rest)%list as x eqn:X.
  destruct T as [vf0 hd sm L1 L2 B8 F N|vf0 hd sm L1 L2 B8 F N].
  - apply app_cut in X; [|lia]. destruct X as (<- & X). apply app_cut in X; [|rewrite blen_be32; lia]. destruct X as (<- & X).
    unfold trun_head in L2. rewrite B in L2.
    set (hd1 := btake 4 hd). set (hd2 := bdrop 4 hd). assert (HE : hd = (hd1 ++ hd2)%list) by (symmetry; apply btake_drop).
    assert (H1 : blen hd1 = 4). { unfold hd1. rewrite blen_btake by lia. destruct (Z.testbit (be_val vf0) 2); lia. }
    rewrite HE in X. rewrite <- app_assoc in X. apply app_cut in X; [|unfold s32; rewrite blen_be32; lia]. destruct X as (_ & <-).
    rewrite app_assoc with (l := s32 o').
    apply TT_each; auto. rewrite blen_app. unfold s32. rewrite blen_be32. unfold trun_head. rewrite B. rewrite HE, blen_app in L2. lia.
  - apply app_cut in X; [|lia]. destruct X as (<- & X). apply app_cut in X; [|rewrite blen_be32; lia]. destruct X as (<- & X).
    unfold trun_head in L2. rewrite B in L2.
    set (hd1 := btake 4 hd). set (hd2 := bdrop 4 hd). assert (HE : hd = (hd1 ++ hd2)%list) by (symmetry; apply btake_drop).
    assert (H1 : blen hd1 = 4). { unfold hd1. rewrite blen_btake by lia. destruct (Z.testbit (be_val vf0) 2); lia. }
    rewrite HE in X. rewrite <- app_assoc in X. apply app_cut in X; [|unfold s32; rewrite blen_be32; lia]. destruct X as (_ & <-).
    rewrite app_assoc with (l := s32 o').
    apply TT_dflt; auto. rewrite blen_app. unfold s32. rewrite blen_be32. unfold trun_head. rewrite B. rewrite HE, blen_app in L2. lia.
Qed.
Lemma kid_trun : forall r d x k dd u, kid_change r d (Leaf (bstr "trun") x) k -> trun_total dd x u ->
  exists x', k = Leaf (bstr "trun") x' /\ trun_total dd x' u.
Proof.
  intros r d x k dd u (K & _) T. remember (Leaf (bstr "trun") x) as b. remember [k] as bs. revert Heqb Heqbs.
  destruct K; intros E E2; try discriminate.
  - injection E as -> ->. exfalso. apply H. cbn. auto 10.
  - injection E as ->. injection E2 as <-. eauto.
  - injection E as <-. injection E2 as <-. eexists. split; [reflexivity|]. exact (trun_moved _ _ _ _ _ _ _ H0 H1 H2 T).
Qed.
Lemma kids_split : forall r d a k b out, Forall2 (kid_change r d) (a ++ k :: b) out ->
  exists a' k' b', out = (a' ++ k' :: b')%list /\ Forall2 (kid_change r d) a a' /\ kid_change r d k k' /\ Forall2 (kid_change r d) b b'.
Proof.
  intros r d a k b out H. apply Forall2_app_inv_l in H. destruct H as (a' & y & A & B & ->).
  inversion B as [|? k' ? b' K B2]; subst. exists a', k', b'. auto.
Qed.
Lemma untimed_kids : forall r d a b, Forall2 (kid_change r d) a b -> Forall plain b -> Forall untimed a -> Forall untimed b.
Proof.
  intros r d a b H. induction H as [|x y a b (_ & K & _) H IH]; intros P U; [constructor|].
  inversion P; subst. inversion U as [|? ? (_ & U1) U2]; subst. constructor; [|auto]. split; [assumption|]. rewrite K. exact U1.
Qed.
Lemma inserted_spans : forall default x l l2 t d, Forall (fun b => ~ In (btype b) [bstr "moof"; bstr "mdat"]) x ->
  inserted x l l2 -> spans default l t d -> spans default l2 t d.
Proof.
  intros default x l l2 t d FX I (pre & f & m & h & r & dd & E & FP & R).
  assert (L2 : l2 = MediaSpec.seg (pre ++ x) f m []).
  { destruct I as [(a & y & b & EL & MY & NB & ->)|(NM & _)].
    - rewrite E in EL. unfold MediaSpec.seg in *. cut (a = pre /\ y :: b = [fr_moof f; Leaf (bstr "mdat") m]).
      + intros (-> & ->). rewrite <- app_assoc. reflexivity.
      + clear E R. revert a EL. induction pre as [|p pre IH]; intros a EL.
        * destruct a as [|a0 a]; [cbn [app] in EL; auto|]. exfalso. cbn [app] in EL. injection EL as _ EL.
          destruct a as [|a1 a]; cbn [app] in EL; [injection EL as EL _; subst y; discriminate MY|].
          injection EL as _ EL. destruct a; discriminate.
        * inversion FP as [|? ? P1 P2]; subst. destruct a as [|a0 a]; cbn [app] in EL.
          -- exfalso. injection EL as -> _. apply P1. rewrite MY. left. reflexivity.
          -- injection EL as -> EL. destruct (IH P2 a EL) as (-> & H). auto.
    - exfalso. rewrite E in NM. unfold MediaSpec.seg in NM. apply Forall_app in NM. destruct NM as (_ & NM).
      inversion NM as [|? ? N1 _]; subst. apply N1. reflexivity. }
  exists (pre ++ x)%list, f, m, h, r, dd. split; [exact L2|]. split; [apply Forall_app; auto|exact R].
Qed.
Lemma filter_spans : forall p default l t d out st, segment_ok l -> mp_is_ttml p = false -> spans default l t d ->
  media_filter p (encs l) = Ok (out, st) ->
  exists l2, out = encs l2 /\ wf_boxes l2 /\ spans default l2 (t + rq_shift (req_of p None)) d.
Proof.
  intros p default l t d out st OK NT SP H. assert (SP' := SP).
  destruct SP as (pre & f & m & h & r & dd & -> & FP & OR & D & TD & TT).
  assert (PL := one_run_plain _ _ _ OR).
  apply media_filter_boxes in H; auto. destruct H as (l1 & l2 & g & n & TC & _ & INS & -> & W).
  unfold prepared, prepared_size in TC. rewrite NT in TC.
  exists l2. split; [reflexivity|]. split; [exact W|]. eapply inserted_spans; [|exact INS|].
  { eapply Forall_impl; [|apply extras_leaf]. intros b (tt & pl & -> & [-> | ->]); cbn [btype In]; intuition discriminate. }
  clear INS W SP'. unfold MediaSpec.seg in *.
  apply (proj1 (boxes_ok_app _ _ _ _)) in OK. destruct OK as [OKp _].
  apply top_changes_app in TC. destruct TC as (d0 & B & y' & -> & TP & TC).
  apply top_changes_cons in TC. destruct TC as (d' & x' & y2 & -> & TC & K).
  destruct K as [(_ & K)|(K & _)]; [|exfalso; apply K; simpl; auto].
  apply top_changes_cons in TC. destruct TC as (d2 & x2 & B2 & -> & TC & K2).
  destruct K2 as [(_ & K2)|(K2 & _)]; [|exfalso; apply K2; simpl; auto].
  apply mdat_change in K2. destruct K2 as [-> ->]. inversion TC; subst B2.
  apply fragment_change in K; auto.
  destruct K as (f' & t' & g' & -> & (PA & P1 & P2 & PB) & _ & CA & C1 & C2 & CB & D1 & D2 & _).
  assert (t' = t) by (eapply decode_time_fun; eauto). subst t'.
  assert (FB := tops_no_frag _ _ _ _ _ _ TP OKp FP).
  destruct OR as (q1 & q2 & q3 & q4 & E1 & E2 & U). rewrite E1 in C1. rewrite E2 in C2.
  apply kids_split in C1. destruct C1 as (q1' & k1 & q2' & X1 & Y1 & Y2 & Y3).
  apply kids_split in C2. destruct C2 as (q3' & k2 & q4' & X2 & Z1 & Z2 & Z3).
  apply kid_tfhd in Y2; [|reflexivity]. subst k1.
  destruct (kid_trun _ _ _ _ _ _ Z2 TT) as (r' & -> & TT').
  rewrite X1 in P1. rewrite X2 in P2. apply Forall_app in P1. destruct P1 as (P11 & P12). inversion P12 as [|? ? _ P13]; subst.
  apply Forall_app in P2. destruct P2 as (P21 & P22). inversion P22 as [|? ? _ P23]; subst.
  rewrite !Forall_app in U. destruct U as (U1 & U2 & U3 & U4 & U5 & U6).
  exists B, f', m, h, r', dd. split; [reflexivity|]. split; [exact FB|]. split; [|auto].
  exists q1', q2', q3', q4'. split; [exact X1|]. split; [exact X2|]. rewrite !Forall_app.
  repeat split; eapply untimed_kids; eauto.
Qed.

(** ** Replies *)
Lemma reply_spans : forall limit s r now sid history c rep n down rp,
  admitted limit r now -> hr_range r = None -> site_ok s ->
  provider_config s r now = Ok c -> c_ext c = ".m4s" -> not_chunked c -> request_nr c = Ok n ->
  c_reps c = [rep] -> rep_type rep <> "subtitles" -> going_down c (py_int_of_Q now) down ->
  fst (application limit s r now sid (run limit s history [])) = Ok rp -> rp_status rp = 200 ->
  exists file, st_files s (c_content_name c) (c_rel_path c) (source_file c n) ".m4s" = Ok file /\
    forall l default t d, file = encs l -> segment_ok l -> spans default l t d ->
      replied rp default (t + shift c n * rep_timescale rep) d.
Proof.
  intros limit s r now sid history c rep n down rp AD R SK P E NC RN RP NS G H OK.
  destruct (provider_wf _ _ _ _ SK P) as (W & EL).
  assert (RPN : c_reps c <> []) by (rewrite RP; discriminate).
  destruct (media_reply _ _ _ _ _ _ _ _ AD R P E NC H) as [K|[(K & sv & GM & b & M & B)|(sv & t & ch & _ & M)]].
  - exfalso. rewrite K in OK. discriminate.
  - rewrite (served_is _ _ _ _ _ W EL E RN RPN G GM) in M. unfold media_content in M. rewrite RP in M.
    unfold plain_segment in M. rewrite RP in M. apply bind_ok in M. destruct M as (x & M & Z). injection Z as ->.
    unfold filter_media_segment in M. rewrite E in M. apply bind_ok in M. destruct M as (file & F & M).
    exists file. split; [exact F|]. intros l default t d -> OKl SP.
    apply bind_ok in M. destruct M as ((o & st) & M & Z). injection Z as ->.
    apply (filter_spans _ default l t d) in M; auto.
    + destruct M as (l2 & -> & Wl & SP2). split; [exact K|]. exists l2. split; [exact B|]. split; [exact Wl|].
      unfold req_of in SP2. cbn [rq_shift] in SP2.
      set (p := segment_params c rep (the_served c n down) None (py_int_of_Q now)) in *.
      change (mp_timescale p) with (Some (rep_timescale rep)) in SP2.
      change (mp_offset p) with (loop_start c (media_start c n)) in SP2. rewrite loop_start_shift in SP2 by exact W. exact SP2.
    + unfold segment_params. cbn [mp_is_ttml]. apply String.eqb_neq. exact NS.
  - exfalso. unfold media_content in M. rewrite RP in M. apply bind_ok in M. destruct M as (x & _ & M). discriminate.
Qed.

(** ** Analyzed content *)
Lemma in_list : forall l first nr, numbered first l -> In nr (map s_nr l) ->
  exists x, nth_error l (Z.to_nat (nr - first)) = Some x /\ s_nr x = nr /\ first <= nr.
Proof.
  induction l as [|s l IH]; intros first nr N I; [destruct I|]. destruct N as (N1 & N2). destruct I as [<-|I].
  - exists s. replace (s_nr s - first) with 0 by lia. split; [reflexivity|]. split; [reflexivity|lia].
  - destruct (IH _ _ N2 I) as (x & X & Y & Z). exists x. replace (Z.to_nat (nr - first)) with (Datatypes.S (Z.to_nat (nr - (first + 1)))) by lia.
    split; [exact X|]. split; [exact Y|lia].
Qed.
Lemma stored_segment : forall r ts first l default nr file, segments_of r ts first l -> track (vr_init r) ts default ->
  In (nr, file) (vr_files r) ->
  exists x, nth_error l (Z.to_nat (nr - first)) = Some x /\ first <= nr /\ timed default file (s_start x) (s_dur x).
Proof.
  intros r ts first l default nr file (_ & N & P & default' & T' & F) T I.
  destruct (track_det _ _ _ _ _ T T') as (_ & <-).
  assert (J : In nr (map s_nr l)).
  { eapply Permutation_in; [exact P|]. change nr with (fst (nr, file)). apply in_map. exact I. }
  destruct (in_list _ _ _ N J) as (x & X & Y & Z). exists x. split; [exact X|]. split; [exact Z|].
  rewrite Forall_forall in F. destruct (F x (nth_error_In _ _ X)) as (f & I2 & M). rewrite Y in I2.
  assert (ND : NoDup (map fst (vr_files r))).
  { eapply Permutation_NoDup; [symmetry; exact P|]. rewrite (numbered_count _ _ N). apply count_nodup. }
  rewrite (nodup_fst _ _ _ _ _ ND I I2). exact M.
Qed.
Lemma index_shift : forall c n, wf_cfg c ->
  shift c n + (media_start c n / c_seg_dur c) mod c_vod_n c * c_seg_dur c = media_start c n / c_seg_dur c * c_seg_dur c.
Proof.
  intros c n W. assert (D := wf_dur c W). assert (N := wf_n c W). unfold shift.
  rewrite <- Z.div_div by lia. set (i := media_start c n / c_seg_dur c).
  assert (E := Z.div_mod i (c_vod_n c) ltac:(lia)). rewrite E at 3. ring.
Qed.
Lemma analyzed_reply : forall base sets cfg ms v name k set m r l x0 rest default limit s rq now sid history c rep n down rp,
  analyze base sets = Ok (cfg, ms) -> named sets -> strip base = base ->
  Forall (fun s => Forall (fun r => plain_id (vr_id r)) (vs_reps s)) sets ->
  read_config (write_config cfg) = Ok v ->
  nth_error sets k = Some set -> nth_error ms k = Some m -> In (vs_type set) ["video"; "audio"] ->
  In r (vs_reps set) -> own_id sets set r ->
  segments_of r (md_timescale m) (vd_first cfg) l -> l = x0 :: rest -> track (vr_init r) (md_timescale m) default ->
  one_fragment default r ->
  site_ok s -> st_vod s name = Ok v -> stores s name r ->
  admitted limit rq now -> hr_range rq = None ->
  provider_config s rq now = Ok c -> c_ext c = ".m4s" -> not_chunked c -> request_nr c = Ok n ->
  c_content_name c = name -> c_rel_path c = vr_id r -> c_reps c = [rep] -> rep_id rep = vr_id r ->
  going_down c (py_int_of_Q now) down ->
  fst (application limit s rq now sid (run limit s history [])) = Ok rp -> rp_status rp = 200 ->
  let d := vd_duration cfg in let ts := md_timescale m in
  let i := media_start c n / d in
  c_seg_dur c = d /\ c_vod_n c = vd_n cfg /\
  exists x, nth_error l (Z.to_nat (i mod vd_n cfg)) = Some x /\
    let t := s_start x + i / vd_n cfg * (vd_n cfg * d) * ts in
    replied rp default t (s_dur x) /\
    10 * Z.abs (s_start x0 + (i + 1) * d * ts - (t + s_dur x)) < ts.
Proof.
  intros base sets cfg ms v name k set m r l x0 rest default limit s rq now sid history c rep n down rp
    A NA SB PI RC S M TY IR OI SG EL TR OF SK SV ST AD HR P EX NC RN CN RP CR ID G H OK d ts i.
  destruct (provider_content _ _ _ _ SK P) as (v' & V' & C1 & C2 & C3 & C4). rewrite CN, SV in V'. injection V' as <-.
  destruct (SK _ _ SV) as (PD & PN).
  assert (DZ : vd_duration cfg <> 0) by (destruct (VodProofs3.setup_back cfg v RC) as (_ & _ & _ & X); exact X).
  destruct (C54_roundtrip_partial_pf base sets cfg ms A NA SB PI DZ) as (v' & R' & F1 & F2 & F3 & _ & _ & MM).
  rewrite RC in R'. injection R' as <-.
  destruct (MM k set m S M TY) as (_ & MR). specialize (MR r IR OI).
  destruct (C4 rep ltac:(rewrite CR; left; reflexivity)) as (me & ME & TS). rewrite ID, MR in ME. injection ME as ET EM. subst me.
  cbn [m_timescale] in TS. fold ts in TS.
  assert (NS : rep_type rep <> "subtitles") by (rewrite <- ET; destruct TY as [<-|[<-|[]]]; discriminate).
  destruct (reply_spans _ _ _ _ _ _ _ _ _ _ _ AD HR SK P EX NC RN CR NS G H OK) as (file & FI & SP).
  destruct (provider_wf _ _ _ _ SK P) as (W & _).
  assert (SI : source_file c n - vd_first cfg = i mod vd_n cfg).
  { unfold source_file. rewrite C1, C2, C3, F1, F2, F3. unfold i, d. lia. }
  assert (P0 : 0 <= vd_first cfg).
  { destruct SG as (_ & N0 & P0 & _). rewrite EL in N0, P0. destruct N0 as (N0 & _).
    assert (J : In (vd_first cfg) (map fst (vr_files r))).
    { eapply Permutation_in; [symmetry; exact P0|]. left. exact N0. }
    apply in_map_iff in J. destruct J as (f & J1 & J2). unfold named in NA. rewrite Forall_forall in NA.
    specialize (NA _ (nth_error_In _ _ S)). rewrite Forall_forall in NA. specialize (NA _ IR). rewrite Forall_forall in NA.
    specialize (NA _ J2). lia. }
  assert (P1 : 0 <= source_file c n).
  { assert (Wn := wf_n c W). rewrite C2, F2 in Wn. assert (B := Z.mod_pos_bound i (vd_n cfg) Wn). lia. }
  rewrite CN, RP in FI. apply (ST _ _ P1) in FI. destruct (OF _ _ FI) as (b & t & u & -> & OKb & SPb).
  destruct (stored_segment _ _ _ _ _ _ _ SG TR FI) as (x & X & _ & TM).
  destruct (timed_spans _ _ _ _ _ _ OKb SPb TM) as (E1 & E2). specialize (SP _ _ _ _ eq_refl OKb SPb). rewrite TS in SP. rewrite <- E1, <- E2 in SP.
  rewrite C1, C2, F2, F3. split; [reflexivity|]. split; [reflexivity|]. exists x.
  rewrite SI in X. split; [exact X|]. cbv zeta.
  assert (Wn := wf_n c W). assert (Wd := wf_dur c W). rewrite C1, F3 in Wd. rewrite C2, F2 in Wn. fold d in Wd.
  assert (SH : shift c n = i / vd_n cfg * (vd_n cfg * d)).
  { unfold shift. rewrite C1, C2, F2, F3. fold d. rewrite <- Z.div_div by lia. fold i. rewrite (Z.mul_comm d). reflexivity. }
  rewrite SH in SP. split; [exact SP|].
  destruct (C58_grid_pf base sets cfg ms k set m r A NA S M IR) as (l' & SG' & NG).
  destruct (segments_det _ _ _ _ _ _ SG SG') as (<- & _).
  specialize (NG _ _ EL _ _ X). fold d ts in NG. assert (B := Z.mod_pos_bound i (vd_n cfg) Wn).
  rewrite Z2Nat.id in NG by lia. unfold s_end in NG.
  assert (E := Z.div_mod i (vd_n cfg) ltac:(lia)). set (q := i / vd_n cfg) in *. set (w := i mod vd_n cfg) in *. rewrite E.
  replace (s_start x0 + (vd_n cfg * q + w + 1) * d * ts - (s_start x + q * (vd_n cfg * d) * ts + s_dur x))
    with (s_start x0 + (w + 1) * d * ts - (s_start x + s_dur x)) by ring. exact NG.
Qed.
