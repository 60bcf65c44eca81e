(** From the samples of the stored segments to those of the replies (C84). *)
From Coq Require Import Lqa ZifyBool ZifyNat.
From Verif Require Import Base BaseProofs BytesModel BytesProofs StrModel BoxSpec Mp4Model Mp4Proofs ConfigModel ConfigProofs
  ProxyModel ProxySpec ProxyProofs ProxyTheory Proxy2Theory ConfigTheory TimeModel TimeSpec TimeProofs TimeTheory
  EmsgModel EmsgSpec EmsgTheory MediaModel MediaProofs MediaProofs2 MediaTheory SegmentModel Emsg2Theory
  InitModel InitSpec InitTheory HttpModel HttpSpec HttpProofs HttpTheory ChunkModel EndSpec EndTheory
  Mpd2Spec Mpd2Proofs MediaSpec ChunkSpec ChunkTheory SampleSpec SampleProofs.
Local Open Scope string_scope.
Open Scope Z_scope.

(** ** What is sent *)
Lemma emsg_other : forall p, other (Leaf (bstr "emsg") p).
Proof. intros p. split; [split; [cbn; intuition discriminate|reflexivity]|cbn; intuition discriminate]. Qed.
Lemma sidx_other : forall p, other (Leaf (bstr "sidx") p).
Proof. intros p. split; [split; [cbn; intuition discriminate|reflexivity]|cbn; intuition discriminate]. Qed.
(** The segment sent, whatever the default sample duration. *)
Lemma filter_parts : forall files c r rel n b dflt now l out,
  wf_cfg c -> 0 <= now ->
  files rel (source_file c n) (c_ext c) = Ok (encs l) -> segment_ok l -> rep_type r <> "subtitles" ->
  filter_media_segment files c r rel (the_served c n b) dflt now = Ok out ->
  exists o, out = encs o /\ sent c r n now b l o /\ wf_boxes o /\
    exists last ev x l1 g, top_changes (MediaSpec.mk_request (Some n) (shift c n * rep_timescale r) last None ev) 0 l l1 g /\
      inserted x l1 o /\ Forall other ev /\ Forall other x.
Proof.
  intros files c r rel n b dflt now l out W NN F OK NS H.
  assert (F' : files rel (sv_vod (the_served c n b)) (c_ext c) = Ok (encs l)) by exact F.
  assert (H0 := H). unfold filter_media_segment in H. rewrite F' in H. cbn [bind] in H.
  apply bind_ok in H. destruct H as ((o & st) & H & E). injection E as <-.
  set (p := segment_params c r (the_served c n b) dflt now) in *.
  assert (NT : mp_is_ttml p = false).
  { unfold p, segment_params. cbn [mp_is_ttml]. apply String.eqb_neq. exact NS. }
  apply media_filter_boxes in H; auto.
  destruct H as (l1 & l2 & g & size & TC & _ & INS & E & WF).
  unfold prepared, prepared_size in TC. rewrite NT in TC.
  assert (TC' : top_changes (MediaSpec.mk_request (Some n) (shift c n * rep_timescale r) (Q_in n (c_last_nrs c)) None (events p)) 0 l l1 g).
  { unfold req_of in TC. change (mp_seg_nr p) with (Some n) in TC. change (mp_timescale p) with (Some (rep_timescale r)) in TC.
    change (mp_offset p) with (loop_start c (media_start c n)) in TC. rewrite loop_start_shift in TC by exact W.
    exact TC. }
  assert (OE : Forall other (events p)).
  { unfold events. destruct (create_scte35box _ _ _) as [[|? ?]|]; constructor; [apply emsg_other|constructor]. }
  assert (OX : Forall other (extras p st size)).
  { unfold extras. apply Forall_app. split.
    - destruct (mp_emsg_last p); constructor; [apply emsg_other|constructor].
    - destruct (mp_insert_sidx p); [|constructor].
      destruct (mp_timescale p), (ms_tfdt st), (ms_duration st); constructor; [apply sidx_other|constructor]. }
  exists l2. split; [exact E|]. split; [|split; [exact WF|]].
  2:{ do 5 eexists. split; [exact TC'|]. split; [exact INS|]. split; [exact OE|exact OX]. }
  assert (SP : rep_type r <> "video" -> events p = []).
  { intros Z. unfold events, p, segment_params. cbn [mp_scte35 mp_seg_nr mp_seg_duration].
    destruct (String.eqb_spec (rep_type r) "video") as [|_]; [contradiction|]. reflexivity. }
  exists (Q_in n (c_last_nrs c)), (events p),
    (if b then [Leaf (bstr "emsg") (emsg_payload (last_event p))] else []).
  unfold extras in INS. change (mp_emsg_last p) with b in INS.
  eexists. exists l1, g. split; [exact TC'|split; [exact INS|]].
  split; [apply Q_in_last|]. split; [|split; [|split; [|split]]].
  - destruct b; [|reflexivity]. eexists. split; [reflexivity|].
    destruct (C32_calendar_pf now NN) as (y & m & d & hh & mi & ss & R & V & I).
    exists (make_timestamp now), y, m, d, hh, mi, ss. split; [|auto].
    unfold event_payload, emsg_payload, last_event. cbn [em_scheme em_value em_timescale em_delta em_duration em_id em_data].
    change (mp_now p) with (inject_Z now). unfold make_timestamp_Q. rewrite Qfloor_Z. rewrite <- !app_assoc. reflexivity.
  - destruct (mp_insert_sidx p); [|constructor].
    destruct (mp_timescale p), (ms_tfdt st), (ms_duration st); constructor; [reflexivity|constructor].
  - intros Z. change (mp_insert_sidx p) with (c_insert_sidx c). rewrite Z. reflexivity.
  - exact SP.
  - intros V. apply video_events; [unfold p, segment_params; cbn [mp_scte35]; rewrite V|..]; reflexivity.
Qed.
Lemma samples_sent : forall files c r rel n b dflt now f d nr track samples out,
  wf_cfg c -> 0 <= now ->
  files rel (source_file c n) (c_ext c) = Ok (encs (f_boxes f)) -> segment_ok (f_boxes f) -> rep_type r <> "subtitles" ->
  fragment_is f d (encs (f_boxes f)) nr track samples -> media_follows d f -> 0 <= td_size d ->
  filter_media_segment files c r rel (the_served c n b) dflt now = Ok out ->
  exists o, out = encs o /\ sent c r n now b (f_boxes f) o /\
    fragment_says d (encs o) n track (map (later (shift c n * rep_timescale r)) samples).
Proof.
  intros files c r rel n b dflt now f d nr track samples out W NN F OK NS IS MF TS H.
  destruct (filter_parts _ _ _ _ _ _ _ _ _ _ W NN F OK NS H) as (o & E & SE & WF & last & ev & x & l1 & g & TC & INS & OE & OX).
  exists o. split; [exact E|]. split; [exact SE|].
  destruct (fragment_sent f d _ nr track samples (MediaSpec.mk_request (Some n) (shift c n * rep_timescale r) last None ev) n l1 g x o IS MF TS eq_refl eq_refl OE OX TC INS WF) as (f' & _ & K).
  exists f'. exact K.
Qed.

(** ** Replies *)
(** The reply to a media request of one representation is refused, or it has
    number [n] and exactly the samples of the stored segment of the loop, later
    by the loops that went by. *)
Lemma C84_samples_partial_pf : forall limit s r now sid history c rep n down f d nr track samples rp,
  admitted limit r now -> hr_range r = None -> site_ok s -> (0 <= now)%Q ->
  provider_config s r now = Ok c -> c_ext c = ".m4s" -> not_chunked c -> request_nr c = Ok n ->
  c_reps c = [rep] -> rep_type rep <> "subtitles" -> going_down c (py_int_of_Q now) down ->
  st_files s (c_content_name c) (c_rel_path c) (source_file c n) ".m4s" = Ok (encs (f_boxes f)) -> segment_ok (f_boxes f) ->
  fragment_is f d (encs (f_boxes f)) nr track samples -> media_follows d f -> 0 <= td_size d ->
  fst (application limit s r now sid (HttpModel.run limit s history [])) = Ok rp ->
  rp_status rp = 404 \/
  rp_status rp = 200 /\ available c n now /\
  exists out, rp_body rp = [encs out] /\ sent c rep n (py_int_of_Q now) down (f_boxes f) out /\
    fragment_says d (encs out) n track (map (later (shift c n * rep_timescale rep)) samples).
Proof.
  intros limit s r now sid history c rep n down f d nr track samples rp AD R SK NN P E NC RN RP NS G F OK IS MF TS H.
  destruct (provider_wf _ _ _ _ SK P) as (W & EL).
  assert (RPN : c_reps c <> []) by (rewrite RP; discriminate).
  destruct (media_reply _ _ _ _ _ _ _ _ AD R P E NC H) as [K|[(K & sv & GM & b & M & B)|(sv & t & ch & _ & M)]].
  - left. exact K.
  - right. split; [exact K|]. destruct (served_window _ _ _ _ _ W E RN RPN G GM) as (A1 & A2 & A3).
    split; [exact A3|].
    rewrite (served_is _ _ _ _ _ W EL E RN RPN G GM) in M. unfold media_content in M. rewrite RP in M.
    unfold plain_segment in M. rewrite RP in M. apply bind_ok in M. destruct M as (x & M & Z). injection Z as ->.
    destruct (samples_sent _ _ _ _ _ _ _ _ f d nr track samples _ W (now_nonneg _ NN) ltac:(rewrite E; exact F) OK NS IS MF TS M) as (o & -> & SE & FS).
    exists o. split; [exact B|]. split; [exact SE|exact FS].
  - exfalso. unfold media_content in M. rewrite RP in M. apply bind_ok in M. destruct M as (x & _ & M). discriminate.
Qed.

Lemma chunk_reply : forall limit s r now sid dflt c q rep rp,
  admitted limit r now -> hr_range r = None -> provider_config s r now = Ok c -> c_ext c = ".m4s" ->
  c_chunkdur c = Some q -> (0 < q)%Q -> c_reps c = [rep] ->
  fst (application limit s r now sid dflt) = Ok rp ->
  rp_status rp = 404 \/
  rp_status rp = 200 /\ exists sv t, get_media c now = Ok (Serve sv) /\
    chunked_segment (st_files s (c_content_name c)) (st_inits s (c_content_name c) (c_rel_path c) "init.mp4") c sv (py_int_of_Q now) = Ok (t, rp_body rp).
Proof.
  intros limit s r now sid dflt c q rep rp AD R P E Q QP RP H. rewrite (admitted_content _ _ _ _ _ _ AD) in H. cbn [fst] in H.
  assert (K := content_cases _ _ _ _ R H). unfold respond in K. rewrite P in K. cbn [bind] in K. rewrite E in K.
  change (String.eqb ".m4s" ".m4s") with true in K. cbv iota in K. rewrite Q in K. rewrite (proj2 (Qltb_true _ _) QP) in K.
  unfold media_response in K. destruct (get_media c now) as [[why|sv]|e] eqn:G; cbn [bind] in K; try (left; exact K).
  rewrite E in K. change (String.eqb ".m4s" ".m4s") with true in K. cbv iota in K.
  unfold media_content in K. rewrite RP in K. cbv iota in K.
  destruct (chunked_segment _ _ c sv (py_int_of_Q now)) as [(t & l)|e] eqn:M; cbn [bind] in K; [|left; exact K].
  destruct K as (K1 & K2). right. split; [exact K1|]. exists sv, t. split; [reflexivity|]. rewrite K2. exact M.
Qed.
(** With chunks of [D] ticks asked for (chunkdur), the body is a list of
    fragments, each readable on its own, with the samples of the reply above cut
    at the multiples of [D]. *)
Lemma C84_chunks_partial_pf : forall limit s r now sid history c q D rep n down f d nr track samples li tk md hd tx rp,
  admitted limit r now -> hr_range r = None -> site_ok s -> (0 <= now)%Q ->
  provider_config s r now = Ok c -> c_ext c = ".m4s" -> request_nr c = Ok n ->
  c_chunkdur c = Some q -> 0 < D -> (inject_Z D <= q * inject_Z (rep_timescale rep) < inject_Z (D + 1))%Q -> (0 < q)%Q ->
  c_reps c = [rep] -> rep_type rep <> "subtitles" -> going_down c (py_int_of_Q now) down ->
  st_inits s (c_content_name c) (c_rel_path c) "init.mp4" = Ok (encs li) -> boxes_ok movie_containers reader_ok li ->
  of_type (bstr "tkhd") (movie_leaves li) = [tk] -> of_type (bstr "mdhd") (movie_leaves li) = [md] ->
  of_type (bstr "hdlr") (movie_leaves li) = [hd] -> of_type (bstr "trex") (movie_leaves li) = [tx] ->
  d = mk_defaults (field 12 4 tx) (field 16 4 tx) (field 20 4 tx) -> 0 <= td_dur d < 4294967296 -> 0 <= td_size d < 4294967296 ->
  st_files s (c_content_name c) (c_rel_path c) (source_file c n) ".m4s" = Ok (encs (f_boxes f)) -> segment_ok (f_boxes f) ->
  fragment_is f d (encs (f_boxes f)) nr track samples -> media_follows d f ->
  let sent_samples := map (later (shift c n * rep_timescale rep)) samples in
  Forall (fun m => 0 <= ms_cto m < 2147483648) samples -> Forall (fun m => ms_time m < 18446744073709551616) sent_samples ->
  Z.of_nat (List.length samples) < 134000000 ->
  fst (application limit s r now sid (HttpModel.run limit s history [])) = Ok rp ->
  rp_status rp = 404 \/
  rp_status rp = 200 /\ available c n now /\
  exists out, sent c rep n (py_int_of_Q now) down (f_boxes f) out /\
    fragment_says d (encs out) n track sent_samples /\
    (8 + blen (encs out) < 4294967296 ->
     exists parts, chunking ms_dur D sent_samples parts /\
       Forall2 (fun ch part => forall d', exists l, fragment_says d' ch n track l /\ Forall2 same_sample l part) (rp_body rp) parts).
Proof.
  intros limit s r now sid history c q D rep n down f d nr track samples li tk md hd tx rp AD R SK NN P E RN Q DP DQ QP RP NS G
    FI LI I1 I2 I3 I4 DD TD TS F OK IS MF ss CT TI CNT H.
  destruct (provider_wf _ _ _ _ SK P) as (W & EL).
  assert (RPN : c_reps c <> []) by (rewrite RP; discriminate).
  destruct (chunk_reply _ _ _ _ _ _ _ _ _ _ AD R P E Q QP RP H) as [K|(K & sv & t & GM & M)]; [left; exact K|].
  right. split; [exact K|]. destruct (served_window _ _ _ _ _ W E RN RPN G GM) as (A1 & A2 & A3). split; [exact A3|].
  rewrite (served_is _ _ _ _ _ W EL E RN RPN G GM) in M. unfold chunked_segment in M. rewrite RP, FI in M. cbn [bind] in M.
  destruct (C61_one_track_pf li tk md hd tx LI I1 I2 I3 I4) as (ist & IF & _ & _ & _ & TX).
  rewrite IF in M. cbn [bind] in M. rewrite TX in M. cbn [trex_dur bind] in M.
  apply bind_ok in M. destruct M as (sg & M & M2).
  destruct (samples_sent _ _ _ _ _ _ _ _ f d nr track samples _ W (now_nonneg _ NN) ltac:(rewrite E; exact F) OK NS IS MF (proj1 TS) M) as (o & -> & SE & FS).
  exists o. split; [exact SE|]. split; [exact FS|]. intros LEN.
  assert (TK : chunk_ticks c rep = Ok D).
  { unfold chunk_ticks. rewrite Q. f_equal. rewrite py_int_of_Q_nonneg.
    - destruct DQ as (D1 & D2). assert (X := Qfloor_le (q * inject_Z (rep_timescale rep))). assert (Y := Qlt_floor (q * inject_Z (rep_timescale rep))).
      set (z := Qfloor (q * inject_Z (rep_timescale rep))) in *.
      assert (A : (inject_Z z < inject_Z (D + 1))%Q) by (eapply Qle_lt_trans; eauto). rewrite <- Zlt_Qlt in A.
      assert (B : (inject_Z D < inject_Z (z + 1))%Q) by (eapply Qle_lt_trans; eauto). rewrite <- Zlt_Qlt in B. lia.
    - eapply Qle_trans; [|exact (proj1 DQ)]. change 0%Q with (inject_Z 0). rewrite <- Zle_Qle. lia. }
  rewrite TK in M2. cbn [bind] in M2.
  destruct (C41_chunks_partial_pf d (encs o) n track ss (field 8 4 tx) D FS DP TD TS) as (chunks & parts & E1 & CH & AL); auto.
  - unfold ss. apply Forall_forall. intros m I. apply in_map_iff in I. destruct I as (m0 & <- & I). cbn [later ms_cto].
    rewrite Forall_forall in CT. apply CT. exact I.
  - unfold ss. rewrite map_length. exact CNT.
  - rewrite DD in E1. cbn [td_dur td_size td_flags] in E1. rewrite E1 in M2. cbn [bind] in M2. injection M2 as _ <-.
    exists parts. split; [exact CH|exact AL].
Qed.

(** ** A plain URL *)
Lemma plays_later : forall s l a b, plays a b l -> plays (a + s) (b + s) (map (later s) l).
Proof.
  induction l as [|m l IH]; intros a b H; cbn [plays map later ms_time ms_dur] in *; [lia|]. destruct H as (-> & H). split; [reflexivity|].
  replace (a + s + ms_dur m) with (a + ms_dur m + s) by lia. apply IH. exact H.
Qed.
(** Segment n of a plain URL is refused or has the samples of stored segment
    n mod N.  If the stored segments follow each other without gap and last as
    long as the loop says, then so do the segments on air, for ever: segment n
    ends where segment n+1 starts, also when the loop starts over. *)
Lemma C84_default_url_partial_pf : forall limit s r now sid history first name rp ct m v n fs d track nrs samples T reply,
  admitted limit r now -> hr_range r = None -> site_ok s -> (0 <= now)%Q ->
  hr_path r = "/" ++ first ++ "/" ++ name ++ "/" ++ rp ++ "/" ++ print_Z n ++ ".m4s" ->
  no_slash first -> no_slash name -> no_slash rp -> plain_name name -> split_dunder rp = [rp] ->
  st_vod s name = Ok v -> content_type_for_rep (v_media v) rp = Some (ct, m) -> ct <> "subtitles" -> 0 <= n ->
  let N := v_n v in let L := N * v_dur v * m_timescale m in
  (forall k, 0 <= k < N -> st_files s name rp (v_first v + k) ".m4s" = Ok (encs (f_boxes (fs k))) /\ segment_ok (f_boxes (fs k)) /\
     fragment_is (fs k) d (encs (f_boxes (fs k))) (nrs k) track (samples k) /\ media_follows d (fs k) /\ plays (T k) (T (k + 1)) (samples k)) ->
  T N = T 0 + L -> 0 <= td_size d ->
  fst (application limit s r now sid (HttpModel.run limit s history [])) = Ok reply ->
  rp_status reply = 404 \/
  rp_status reply = 200 /\ exists out l, rp_body reply = [encs out] /\ fragment_says d (encs out) n track l /\
    map ms_data l = map ms_data (samples (n mod N)) /\
    plays (on_air T N L n) (on_air T N L (n + 1)) l.
Proof.
  intros limit s r now sid history first name rp ct m v n fs d track nrs samples T reply AD R SK NN HP S1 S2 S3 PN SD HV CT NS HN N L ST TN TS H.
  destruct (default_config s r now first name rp ct m v n HP S1 S2 S3 PN SD HV CT HN)
    as (c & P & f1 & f2 & f3 & f4 & f5 & f6 & f7 & f8 & f9 & f10 & f11 & f12 & f13 & f14 & f15 & f16 & f17 & f18 & f19 & f20 & f21).
  destruct (provider_wf _ _ _ _ SK P) as (W & _). assert (Wd := wf_dur c W). assert (Wn := wf_n c W). rewrite f6 in Wd. rewrite f7 in Wn. fold N in Wn.
  assert (NC : not_chunked c) by (intros q Q; rewrite f18 in Q; discriminate).
  assert (FN : first_nr c = 0) by (unfold first_nr; rewrite f12, f13; reflexivity).
  assert (MS : media_start c n = n * v_dur v) by (unfold media_start, media_time_at_ast; rewrite f13, FN, f6; lia).
  assert (SF : source_file c n = v_first v + n mod N).
  { unfold source_file. rewrite MS, f6, f7, f8. fold N. rewrite Z.div_mul by lia. reflexivity. }
  assert (SH : shift c n = n / N * (N * v_dur v)).
  { unfold shift. rewrite MS, f6, f7. fold N. rewrite (Z.mul_comm (v_dur v) N). rewrite Z.div_mul_cancel_r by lia. reflexivity. }
  assert (KB := Z.mod_pos_bound n N ltac:(lia)).
  destruct (ST _ KB) as (F & OK & IS & MF & PL).
  destruct (C84_samples_partial_pf limit s r now sid history c _ n false (fs (n mod N)) d (nrs (n mod N)) track (samples (n mod N)) reply AD R SK NN P f1 NC f2 f3) as [K|(K & _ & out & B & _ & FS)]; auto.
  { apply gd_plain. intros u. rewrite f17. discriminate. }
  { rewrite f4, f5, SF. exact F. }
  right. split; [exact K|]. exists out. eexists. split; [exact B|]. split; [exact FS|]. cbn [rep_timescale]. split.
  { rewrite map_map. reflexivity. }
  assert (E1 : on_air T N L n = T (n mod N) + shift c n * m_timescale m) by (unfold on_air, L; rewrite SH; lia).
  assert (E2 : on_air T N L (n + 1) = T (n mod N + 1) + shift c n * m_timescale m).
  { unfold on_air. rewrite SH. assert (DM := Z.div_mod n N ltac:(lia)).
    destruct (Z.eq_dec (n mod N + 1) N) as [Z|Z].
    - assert (A : (n + 1) / N = n / N + 1) by (symmetry; apply (Z.div_unique (n + 1) N (n / N + 1) 0); [left; lia|]; rewrite Z.mul_add_distr_l; lia).
      assert (B' : (n + 1) mod N = 0) by (symmetry; apply (Z.mod_unique (n + 1) N (n / N + 1) 0); [left; lia|]; rewrite Z.mul_add_distr_l; lia).
      rewrite A, B', Z, TN. unfold L. lia.
    - assert (A : (n + 1) / N = n / N) by (symmetry; apply (Z.div_unique (n + 1) N (n / N) (n mod N + 1)); [left; lia|]; lia).
      assert (B' : (n + 1) mod N = n mod N + 1) by (symmetry; apply (Z.mod_unique (n + 1) N (n / N) (n mod N + 1)); [left; lia|]; lia).
      rewrite A, B'. unfold L. lia. }
  rewrite E1, E2. apply plays_later. exact PL.
Qed.

(** ** Concrete cases *)
(** Two stored segments of 6 s at 90000 ticks a second, from 1000 on, with two
    samples each. *)
Definition st_head : head := mk_head 0 131080 1 None None (Some 270000) None None.
Definition st_run : ChunkSpec.run := mk_run 0 513 (Some 104) None [mk_entry None (Some 2) None None; mk_entry None (Some 3) None None].
Definition st_frag0 : frag :=
  mk_frag [Leaf (bstr "styp") (bstr "msdh")] [] (be32 0) 7 [] [] st_head [] (0 :: [0; 0; 0] ++ be32 1000) [] st_run [] [] [Leaf (bstr "mdat") [11; 12; 21; 22; 23]].
Definition st_frag1 : frag :=
  mk_frag [Leaf (bstr "styp") (bstr "msdh"); Leaf (bstr "sidx") [0; 0]] [] (be32 0) 8 [] [] st_head [] (0 :: [0; 0; 0] ++ be32 541000) [] st_run [] [] [Leaf (bstr "mdat") [31; 32; 41; 42; 43]].
Lemma st_frag0_ok : frag_ok st_frag0.
Proof. frag_tac. Qed.
Lemma st_frag1_ok : frag_ok st_frag1.
Proof. frag_tac. Qed.
Definition st_defaults : track_defaults := mk_defaults 1000 0 16842752.
Definition st_samples0 : list media_sample := [mk_media_sample [11; 12] 1000 270000 16842752 0; mk_media_sample [21; 22; 23] 271000 270000 16842752 0].
Definition st_samples1 : list media_sample := [mk_media_sample [31; 32] 541000 270000 16842752 0; mk_media_sample [41; 42; 43] 811000 270000 16842752 0].
Ltac says_tac t ok := exists t; split; [reflexivity|]; split; [exact ok|]; split; [reflexivity|]; split; [reflexivity|];
  split; [apply MediaSpec.DT0; [reflexivity|lia]|]; split; [vm_compute; discriminate|]; split; [vm_compute; discriminate|]; split; [vm_compute; discriminate|vm_compute; reflexivity].
Lemma st_frag0_is : fragment_is st_frag0 st_defaults (encs (f_boxes st_frag0)) 7 1 st_samples0.
Proof. says_tac 1000 st_frag0_ok. Qed.
Lemma st_frag1_is : fragment_is st_frag1 st_defaults (encs (f_boxes st_frag1)) 8 1 st_samples1.
Proof. says_tac 541000 st_frag1_ok. Qed.
Ltac seg_tac :=
  unfold segment_ok, f_boxes; cbn [f_pre f_post app boxes_ok];
  repeat match goal with
  | |- _ /\ _ => split
  | |- True => exact I
  | |- box_ok _ _ (f_moof _) => unfold f_moof; apply box_ok_node; cbn [f_a1 f_a2 f_a3 app boxes_ok f_vf f_nr]
  | |- box_ok _ _ (f_traf _) => unfold f_traf; apply box_ok_node; cbn [f_k1 f_k2 f_k3 f_k4 app boxes_ok f_head f_tfdt f_run]
  | |- box_ok _ _ (Leaf _ _) => cbn [box_ok]
  | |- ~ In _ _ => not_in
  | |- In _ _ => cbn; tauto
  | |- leaf_ok _ _ => split; [|intros _; vm_compute; repeat (constructor; [split; [discriminate|reflexivity]|]); constructor]
  | |- _ < _ => vm_compute; reflexivity
  | |- _ = _ => vm_compute; reflexivity
  | |- layout (bstr "mfhd") _ => apply L_mfhd; reflexivity
  | |- layout (bstr "styp") _ => apply (L_styp [bstr "msdh"]); repeat constructor
  | |- layout (bstr "tfdt") _ => first [apply (L_tfdt0 [0; 0; 0] (be32 1000)); reflexivity | apply (L_tfdt0 [0; 0; 0] (be32 541000)); reflexivity]
  | |- layout (bstr "trun") _ => apply L_other; not_in
  | |- layout (bstr "sidx") _ => apply L_other; not_in
  | |- layout (bstr "mdat") _ => apply L_other; not_in
  end.
Lemma st_frag0_seg : segment_ok (f_boxes st_frag0).
Proof. unfold st_frag0. seg_tac. apply (L_tfhd [0;2;0;8] [0;0;0;1] [] (be32 270000) [] []); reflexivity. Qed.
Lemma st_frag1_seg : segment_ok (f_boxes st_frag1).
Proof. unfold st_frag1. seg_tac. apply (L_tfhd [0;2;0;8] [0;0;0;1] [] (be32 270000) [] []); reflexivity. Qed.
Lemma st_frag0_follows : media_follows st_defaults st_frag0.
Proof.
  constructor; [cbn; constructor|reflexivity|]. exists [11; 12; 21; 22; 23], [], 104.
  split; [reflexivity|]. split; [reflexivity|]. split; vm_compute; discriminate.
Qed.
Lemma st_frag1_follows : media_follows st_defaults st_frag1.
Proof.
  constructor; [cbn; constructor|reflexivity|]. exists [31; 32; 41; 42; 43], [], 104.
  split; [reflexivity|]. split; [reflexivity|]. split; vm_compute; discriminate.
Qed.
Definition st_files_of (v : Z) : bytes := if v =? 1 then encs (f_boxes st_frag0) else encs (f_boxes st_frag1).
Definition st_site : site :=
  mk_site ex_read2 (fun _ _ n _ => Ok (st_files_of n)) (fun _ _ _ => Ok (encs ex_init)) (fun _ _ _ => Err "KeyError")
    (fun why c now => "refused " ++ c_filename c).
Lemma st_site_ok : site_ok st_site.
Proof. intros name v H. injection H as <-. vm_compute. split; reflexivity. Qed.
(** Segment 1000000001, the second of loop 500000000, has its decode time in 64
    bits. *)
Example C84_samples_case :
  let r := ex_request "/livesim/sidx_1/two/V1/1000000001.m4s" None in
  exists c rp, admitted 0 r 6000000020 /\ provider_config st_site r 6000000020 = Ok c /\ not_chunked c /\ request_nr c = Ok 1000000001 /\
    c_reps c = [mkRep "V1" "video" 90000] /\ going_down c 6000000020 false /\ shift c 1000000001 = 6000000000 /\
    st_files st_site (c_content_name c) (c_rel_path c) (source_file c 1000000001) ".m4s" = Ok (encs (f_boxes st_frag1)) /\
    fst (application 0 st_site r 6000000020 "" (HttpModel.run 0 st_site [] [])) = Ok rp /\ rp_status rp = 200.
Proof.
  cbn zeta. do 2 eexists. split; [left; reflexivity|]. split; [vm_compute; reflexivity|]. split; [intros q Q; discriminate|].
  split; [vm_compute; reflexivity|]. split; [reflexivity|]. split; [apply gd_plain; intros u; discriminate|].
  split; [vm_compute; reflexivity|]. split; [vm_compute; reflexivity|]. split; [vm_compute; reflexivity|reflexivity].
Qed.
(** The same in chunks of 2 s: one for each sample. *)
Lemma st_init_ok : boxes_ok movie_containers reader_ok ex_init.
Proof. exact (proj1 C61_one_track_case). Qed.
Example C84_chunks_case :
  let r := ex_request "/livesim/chunkdur_2.5/two/V1/1000000001.m4s" None in
  exists c q tk md hd tx rp, provider_config st_site r 6000000020 = Ok c /\ request_nr c = Ok 1000000001 /\
    c_chunkdur c = Some q /\ (inject_Z 225000 <= q * inject_Z 90000 < inject_Z (225000 + 1))%Q /\ (0 < q)%Q /\
    c_reps c = [mkRep "V1" "video" 90000] /\ going_down c 6000000020 false /\
    st_inits st_site (c_content_name c) (c_rel_path c) "init.mp4" = Ok (encs ex_init) /\ boxes_ok movie_containers reader_ok ex_init /\
    of_type (bstr "tkhd") (movie_leaves ex_init) = [tk] /\ of_type (bstr "mdhd") (movie_leaves ex_init) = [md] /\
    of_type (bstr "hdlr") (movie_leaves ex_init) = [hd] /\ of_type (bstr "trex") (movie_leaves ex_init) = [tx] /\
    st_defaults = mk_defaults (field 12 4 tx) (field 16 4 tx) (field 20 4 tx) /\
    st_files st_site (c_content_name c) (c_rel_path c) (source_file c 1000000001) ".m4s" = Ok (encs (f_boxes st_frag1)) /\
    Forall (fun m => 0 <= ms_cto m < 2147483648) st_samples1 /\
    shift c 1000000001 = 6000000000 /\ Forall (fun m => ms_time m < 18446744073709551616) (map (later (6000000000 * 90000)) st_samples1) /\
    fst (application 0 st_site r 6000000020 "" (HttpModel.run 0 st_site [] [])) = Ok rp /\ rp_status rp = 200 /\
    List.length (rp_body rp) = 2%nat.
Proof.
  cbn zeta. do 7 eexists. split; [vm_compute; reflexivity|]. split; [vm_compute; reflexivity|].
  split; [reflexivity|]. split; [split; vm_compute; [discriminate|reflexivity]|]. split; [reflexivity|].
  split; [reflexivity|]. split; [apply gd_plain; intros u; discriminate|]. split; [reflexivity|]. split; [exact st_init_ok|].
  split; [vm_compute; reflexivity|]. split; [vm_compute; reflexivity|]. split; [vm_compute; reflexivity|]. split; [vm_compute; reflexivity|].
  split; [vm_compute; reflexivity|]. split; [vm_compute; reflexivity|].
  split; [repeat constructor; cbn; lia|]. split; [vm_compute; reflexivity|]. split; [repeat constructor; cbn; lia|].
  split; [vm_compute; reflexivity|]. split; reflexivity.
Qed.
(** Segments 4 and 5 of the plain URL: the third time around. *)
Example C84_default_url_case :
  let r := ex_request "/livesim/two/V1/5.m4s" None in
  let fs k := if k =? 0 then st_frag0 else st_frag1 in
  let samples k := if k =? 0 then st_samples0 else st_samples1 in
  let T k := 1000 + k * 540000 in
  hr_path r = "/" ++ "livesim" ++ "/" ++ "two" ++ "/" ++ "V1" ++ "/" ++ print_Z 5 ++ ".m4s" /\
  no_slash "livesim" /\ no_slash "two" /\ no_slash "V1" /\ plain_name "two" /\ split_dunder "V1" = ["V1"] /\
  content_type_for_rep (v_media ex_vod2) "V1" = Some ("video", mkMedia 90000 ["V1"] None None) /\
  (forall k, 0 <= k < 2 -> st_files st_site "two" "V1" (1 + k) ".m4s" = Ok (encs (f_boxes (fs k))) /\ segment_ok (f_boxes (fs k)) /\
     fragment_is (fs k) st_defaults (encs (f_boxes (fs k))) (7 + k) 1 (samples k) /\ media_follows st_defaults (fs k) /\ plays (T k) (T (k + 1)) (samples k)) /\
  T 2 = T 0 + 2 * 6 * 90000 /\ on_air T 2 1080000 5 = 2701000 /\ on_air T 2 1080000 6 = 3241000 /\
  exists rp, fst (application 0 st_site r 40 "" (HttpModel.run 0 st_site [] [])) = Ok rp /\ rp_status rp = 200.
Proof.
  cbn zeta. do 7 (split; [first [reflexivity | unfold no_slash; vm_compute; intuition discriminate]|]).
  split; [|repeat (split; [vm_compute; reflexivity|]); eexists; split; vm_compute; reflexivity].
  intros k K. assert (C : k = 0 \/ k = 1) by lia. destruct C as [-> | ->].
  - split; [reflexivity|]. split; [exact st_frag0_seg|]. split; [exact st_frag0_is|]. split; [exact st_frag0_follows|]. vm_compute. auto.
  - split; [reflexivity|]. split; [exact st_frag1_seg|]. split; [exact st_frag1_is|]. split; [exact st_frag1_follows|]. vm_compute. auto.
Qed.

(** ** Limits *)
(** A box between moof and mdat that is taken out (sidx) moves the media data,
    and the data offset is not adjusted: the samples read are other bytes. *)
Definition odd_head : head := mk_head 0 131080 1 None None (Some 270000) None None.
Definition odd_run : ChunkSpec.run := mk_run 0 513 (Some 114) None [mk_entry None (Some 2) None None; mk_entry None (Some 3) None None].
Definition odd_mdat : box := Leaf (bstr "mdat") [31; 32; 41; 42; 43; 44; 45; 46; 47; 48; 49; 50; 51; 52; 53; 54; 55].
Definition odd_stored : frag :=
  mk_frag [Leaf (bstr "styp") (bstr "msdh")] [] (be32 0) 7 [] [] odd_head [] (0 :: [0; 0; 0] ++ be32 1000) [] odd_run [] [] [Leaf (bstr "sidx") [0; 0]; odd_mdat].
Definition odd_sent : frag :=
  mk_frag [Leaf (bstr "styp") (bstr "msdh")] [] (be32 0) 0 [] [] odd_head [] (0 :: [0; 0; 0] ++ be32 1000) [] odd_run [] [] [odd_mdat].
Lemma odd_stored_ok : frag_ok odd_stored.
Proof. unfold odd_stored, odd_mdat. frag_tac. Qed.
Lemma odd_sent_ok : frag_ok odd_sent.
Proof. unfold odd_sent, odd_mdat. frag_tac. Qed.
Lemma odd_stored_seg : segment_ok (f_boxes odd_stored).
Proof. unfold odd_stored, odd_mdat. seg_tac. apply (L_tfhd [0;2;0;8] [0;0;0;1] [] (be32 270000) [] []); reflexivity. Qed.
Definition one_site (f : frag) : site :=
  mk_site ex_read2 (fun _ _ n _ => Ok (encs (f_boxes f))) (fun _ _ _ => Ok (encs ex_init)) (fun _ _ _ => Err "KeyError")
    (fun why c now => "refused " ++ c_filename c).
Lemma one_site_ok : forall f, site_ok (one_site f).
Proof. intros f name v H. injection H as <-. vm_compute. split; reflexivity. Qed.
Lemma C84_between_refuted_pf : exists s r now rp f d samples l,
  site_ok s /\ admitted 0 r now /\ hr_range r = None /\ (forall n, st_files s "two" "V1" n ".m4s" = Ok (encs (f_boxes f))) /\
  segment_ok (f_boxes f) /\ fragment_is f d (encs (f_boxes f)) 7 1 samples /\
  fst (application 0 s r now "" []) = Ok rp /\ rp_status rp = 200 /\
  exists out, rp_body rp = [out] /\ fragment_says d out 0 1 l /\
    map ms_data samples = [[31; 32]; [41; 42; 43]] /\ map ms_data l = [[49; 50]; [51; 52; 53]].
Proof.
  exists (one_site odd_stored), (ex_request "/livesim/two/V1/0.m4s" None), 10%Q. eexists. exists odd_stored, st_defaults.
  exists [mk_media_sample [31; 32] 1000 270000 16842752 0; mk_media_sample [41; 42; 43] 271000 270000 16842752 0],
    [mk_media_sample [49; 50] 1000 270000 16842752 0; mk_media_sample [51; 52; 53] 271000 270000 16842752 0].
  split; [apply one_site_ok|].
  split; [left; reflexivity|]. split; [reflexivity|]. split; [reflexivity|]. split; [exact odd_stored_seg|].
  split; [says_tac 1000 odd_stored_ok|]. split; [vm_compute; reflexivity|]. split; [reflexivity|].
  exists (encs (f_boxes odd_sent)). split; [vm_compute; reflexivity|]. split; [exists odd_sent; says_tac 1000 odd_sent_ok|].
  split; vm_compute; reflexivity.
Qed.
(** A stored segment may say where its media data is by the position in the file
    (base data offset).  Such segments are never delivered. *)
Definition abs_frag : frag :=
  mk_frag [Leaf (bstr "styp") (bstr "msdh")] [] (be32 0) 7 [] [] (mk_head 0 9 1 (Some 12) None (Some 270000) None None) [] (0 :: [0; 0; 0] ++ be32 1000) []
    (mk_run 0 513 (Some 112) None [mk_entry None (Some 2) None None; mk_entry None (Some 3) None None]) [] [] [Leaf (bstr "mdat") [31; 32; 41; 42; 43]].
Lemma abs_frag_ok : frag_ok abs_frag.
Proof. frag_tac. Qed.
Lemma abs_frag_seg : segment_ok (f_boxes abs_frag).
Proof. unfold abs_frag. seg_tac. apply (L_tfhd [0;0;0;9] [0;0;0;1] [] (be32 0) [] (be32 12 ++ be32 270000)%list); reflexivity. Qed.
Lemma C84_base_offset_refuted_pf : exists s r now c rp f d samples,
  site_ok s /\ admitted 0 r now /\ hr_range r = None /\ provider_config s r now = Ok c /\ request_nr c = Ok 0 /\ available c 0 now /\
  (forall n, st_files s "two" "V1" n ".m4s" = Ok (encs (f_boxes f))) /\
  segment_ok (f_boxes f) /\ fragment_is f d (encs (f_boxes f)) 7 1 samples /\ map ms_data samples = [[31; 32]; [41; 42; 43]] /\
  fst (application 0 s r now "" []) = Ok rp /\ rp_status rp = 404.
Proof.
  exists (one_site abs_frag), (ex_request "/livesim/two/V1/0.m4s" None), 10%Q. do 2 eexists. exists abs_frag, st_defaults.
  exists [mk_media_sample [31; 32] 1000 270000 16842752 0; mk_media_sample [41; 42; 43] 271000 270000 16842752 0].
  split; [apply one_site_ok|].
  split; [left; reflexivity|]. split; [reflexivity|]. split; [vm_compute; reflexivity|]. split; [vm_compute; reflexivity|].
  split; [split; [vm_compute; discriminate|split; [split; [intros k K; exfalso; apply (proj1 K); reflexivity|intros L; exfalso; apply L; reflexivity]|split; [vm_compute; discriminate|right; intros b B; vm_compute in B; injection B as <-; vm_compute; discriminate]]]|].
  split; [reflexivity|]. split; [exact abs_frag_seg|].
  split; [says_tac 1000 abs_frag_ok|]. split; [reflexivity|]. split; [vm_compute; reflexivity|reflexivity].
Qed.
(** Chunks of less than a tick: every segment is refused though the same without
    chunks is delivered. *)
Lemma C84_tick_refuted_pf : exists s r r' now rp rp',
  hr_path r = "/livesim/chunkdur_0.00001/two/V1/5.m4s" /\ hr_path r' = "/livesim/chunkdur_2.5/two/V1/5.m4s" /\
  fst (application 0 s r now "" []) = Ok rp /\ rp_status rp = 404 /\
  fst (application 0 s r' now "" []) = Ok rp' /\ rp_status rp' = 200.
Proof.
  exists st_site, (ex_request "/livesim/chunkdur_0.00001/two/V1/5.m4s" None), (ex_request "/livesim/chunkdur_2.5/two/V1/5.m4s" None), 40%Q. do 2 eexists.
  split; [reflexivity|]. split; [reflexivity|]. split; [vm_compute; reflexivity|]. split; [reflexivity|]. split; [vm_compute; reflexivity|reflexivity].
Qed.
