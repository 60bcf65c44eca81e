(** A player that follows the live manifest is served (C69). *)
From Coq Require Import Lqa.
From Verif Require Import Base BaseProofs BytesModel BytesProofs StrModel BoxSpec ConfigModel ConfigProofs ConfigTheory
  ProxyModel ProxySpec ProxyProofs ProxyTheory SessionProofs ClockProofs TimeModel TimeSpec TimeTheory PeriodModel PeriodSpec PeriodProofs PeriodTheory
  MpdModel MpdSpec MpdProofs MpdTheory Mpd2Spec Mpd2Proofs Mpd2Theory Mpd3Spec Mpd3Proofs Mpd3Theory
  MediaSpec MediaTheory HttpModel HttpSpec HttpProofs HttpTheory EndSpec EndTheory InitSpec InitTheory ServeSpec ServeTheory PlayerSpec PlayerProofs Player2Proofs.
Local Open Scope string_scope.
Open Scope Z_scope.

(** A request for this URL: the text before and after the host. *)
Definition for_url (r : http_request) (url : string) : Prop :=
  url = (if hr_https r then "https" else "http") ++ "://" ++ hr_host r ++ hr_path r /\
  no_slash (hr_host r) /\ exists p, hr_path r = "/" ++ p.

(** Sessions with number addressing: one period, or periods that are a multiple
    of the segment duration; open, or with a stop time; segments available when
    complete or earlier by a number of microseconds. *)
Record live_session (c : config) : Prop := {
  ss_periods : c_pph c = -1 \/
    exists n pd, multi c n pd /\ (c_seg_dur c | pd) /\ c_ast c = 0 /\ c_start_nr c = 0 /\ c_xlink c <= 0;
  ss_ad : c_insert_ad c <= 0;
  ss_urls : c_multi_url c = [];
  ss_loc : c_add_loc c = false;
  ss_ato : exists a m, c_ato c = Some a /\ 0 <= m /\ (a == inject_Z m / inject_Z 1000000)%Q;
  ss_depth : exists b, c_tsbd c = Some b /\ 0 <= b;
  ss_end : (c_stop_time c = None /\ c_mpdur c = None) \/
    (c_stop_time c <> None /\ 0 <= c_start_nr c /\ exists k, 0 < k /\ c_mpdur c = Some (inject_Z (k * c_seg_dur c)));
  ss_last : c_last_nrs c = [];
  ss_aet : c_aet c = None;
  ss_toff : c_timeoffset c = None;
  ss_tl : c_segtl c = false;
  ss_tlnr : c_segtlnr c = false;
  ss_chunk : c_chunkdur c = None;
  ss_sidx : c_insert_sidx c = false;
  ss_ast : 0 <= c_ast c
}.

Lemma url_parts : forall (h : bool) host r bparts' l,
  no_slash host -> no_slash (hr_host r) -> (exists p, hr_path r = "/" ++ p) ->
  split_all "/" ((if hr_https r then "https" else "http") ++ "://" ++ hr_host r ++ hr_path r) =
    (((if h then "https:" else "http:") :: "" :: host :: bparts') ++ l)%list ->
  hr_https r = h /\ hr_host r = host /\ path_parts r = "" :: (bparts' ++ l)%list.
Proof.
  intros h host r bparts' l NH NR (p & EP) H.
  assert (E : split_all "/" ((if hr_https r then "https" else "http") ++ "://" ++ hr_host r ++ hr_path r) =
    (if hr_https r then "https:" else "http:") :: "" :: hr_host r :: split_all "/" p).
  { rewrite EP. replace ((if hr_https r then "https" else "http") ++ "://" ++ hr_host r ++ "/" ++ p)
      with ((if hr_https r then "https:" else "http:") ++ "/" ++ "" ++ "/" ++ hr_host r ++ "/" ++ p) by (destruct (hr_https r); reflexivity).
    rewrite !split_app_slash; [reflexivity|exact NR|unfold no_slash; cbn; tauto|].
    destruct (hr_https r); unfold no_slash; cbn; intuition discriminate. }
  rewrite E in H. cbn [app] in H. injection H as H1 H2 H3. unfold path_parts. rewrite EP, split_slash.
  rewrite H3. split; [|auto]. destruct (hr_https r), h; congruence.
Qed.

(** The periods of such a session. *)
Lemma session_periods : forall c sn now mup ps,
  live_session c -> 0 < c_seg_dur c ->
  adjusted_start_number c = Ok sn -> generate_period_data c sn (adjusted_pto c 0 1) now = Ok (mup, ps) ->
  ps <> [] /\ forall p, In p ps -> exists k z, pd_start_number p = print_Z k /\ pd_start p = "PT" ++ print_Z z ++ "S" /\
    pto_str (pd_pto p) = print_Z z /\ (0 <= z -> z = (effective_number k - first_nr c) * c_seg_dur c).
Proof.
  intros c sn now mup ps S D SN GP. destruct (ss_periods c S) as [PP|(n & pd & M & DV & A0 & N0 & _)].
  - destruct (single_period c now PP D ltac:(pose proof (ss_ad c S); lia)) as (k & p & SN' & GP' & PS & S0 & _ & K2).
    rewrite SN in SN'. injection SN' as <-. rewrite GP in GP'. injection GP' as -> ->. specialize (K2 (ss_toff c S)).
    split; [discriminate|]. intros q [<-|[]]. exists sn, 0. split; [exact PS|].
    assert (E : pd_start p = "PT0S" /\ pd_pto p = PStr (print_Z (adjusted_pto c 0 1))).
    { clear - GP PP S. unfold generate_period_data in GP. rewrite PP in GP. change (Z.min (-1) 60) with (-1) in GP.
      change (negb (count_allowed (-1))) with false in GP. cbv iota in GP.
      assert (A := ss_ad c S). replace (0 <? c_insert_ad c) with false in GP by lia. cbn [bind] in GP. change (-1 =? -1) with true in GP. cbv iota in GP.
      apply bind_inv in GP. destruct GP as (q & _ & GP). injection GP as <-. auto. }
    destruct E as (E1 & E2). split; [exact E1|]. split; [rewrite E2; unfold adjusted_pto; rewrite (ss_toff c S); reflexivity|].
    intros _. subst sn. unfold effective_number, first_nr. rewrite (ss_toff c S). destruct (Z.eqb_spec (c_start_nr c) (-1)); lia.
  - destruct (ss_depth c S) as (b & TS & B0).
    destruct (C23_tiling_partial_pf _ _ _ _ _ _ _ _ _ M TS B0 D A0 GP) as (p0 & rest & E & _ & PS & _).
    split; [rewrite E; discriminate|]. intros p IP.
    destruct (proj1 (C24_aligned_partial_pf _ _ _ _ _ _ _ _ _ M TS D DV A0 N0 ltac:(intros T HT; rewrite (ss_toff c S) in HT; discriminate) GP) p IP) as (k & K1 & K2 & K3 & _).
    exists k, (pd_start_s p). split; [exact K1|]. split; [exact (PS p IP)|]. split; [rewrite K3; reflexivity|].
    intros Z0. assert (FN : first_nr c = 0) by (unfold first_nr; rewrite (ss_toff c S), N0; reflexivity).
    unfold media_start, media_time_at_ast in K2. rewrite (ss_toff c S), FN in K2. rewrite FN.
    assert (0 <= k) by nia. unfold effective_number. destruct (Z.eqb_spec k (-1)); lia.
Qed.

(** What a player sees in the manifest of such a session. *)
Lemma seen : forall c e src t0 x progs period rest b a v,
  live_session c -> 0 < c_seg_dur c -> c_tsbd c = Some b -> 0 <= b -> c_ato c = Some a ->
  x_kids src = (progs ++ period :: rest)%list ->
  Forall (fun y => x_tag y = "ProgramInformation") progs -> x_tag period = "Period" ->
  Forall (fun y => ~ In (x_tag y) ["Period"; "BaseURL"]) rest ->
  (c_stop_time c <> None -> get "timeShiftBufferDepth" src = None) ->
  get_mpd c e src t0 = Ok x -> sees x v -> 0 <= vw_period v ->
  vw_base v = c_base_url c /\ vw_ast v = c_ast c /\ (vw_early v == a)%Q /\
  vw_period v = (vw_number v - first_nr c) * c_seg_dur c /\
  ((c_stop_time c = None /\ vw_depth v = Some b /\ vw_length v = None) \/
   (c_stop_time c <> None /\ vw_depth v = None /\ 0 <= c_start_nr c /\
    exists k, 0 < k /\ c_mpdur c = Some (inject_Z (k * c_seg_dur c)) /\ vw_length v = Some (k * c_seg_dur c))).
Proof.
  intros c e src t0 x progs period rest b a v S D TS B0 AT K FP TP NR NB G V P0.
  assert (NRP : none "Period"%string rest) by (eapply Forall_impl; [|exact NR]; cbv beta; cbn [In]; intros y Y E; apply Y; auto).
  assert (L : c_stl_loss c = false \/ c_multi_url c = []) by (right; apply S).
  pose proof G as GM. apply get_mpd_plain in GM; [|exact L].
  destruct (generate_inv _ _ _ _ _ _ GM) as (d & sn & mup & ps & root & kids & DD & SN & GP & PM & _ & EX).
  destruct (session_periods _ _ _ _ _ S D SN GP) as (NE & PD).
  destruct (C62_periods_partial_pf c e src t0 x progs period rest sn mup ps K FP TP NRP L (ss_tl c S) (ss_tlnr c S) G SN GP NE) as (F & _).
  destruct (children_of _ _ _ _ _ _ _ _ _ _ _ _ _ K FP TP NRP GM DD SN GP NE) as (urls & cb & U & BU & _ & _).
  unfold url_elems in U. rewrite (ss_loc c S), (ss_urls c S) in U. cbn [bind map] in U. injection U as <-.
  specialize (BU "BaseURL"%string ltac:(auto)).
  rewrite (filter_none' "BaseURL" rest) in BU by (eapply Forall_impl; [|exact NR]; cbv beta; cbn [In]; intros y Y E; apply Y; auto).
  cbn [filter] in BU. change (has_tag "BaseURL" (baseurl_elem d (c_base_url c))) with true in BU. cbn iota in BU. cbn [app] in BU.
  destruct (process_mpd_times _ _ _ _ _ _ PM) as (AST & _ & LEN & DEP & _ & _).
  pose proof (mpd_data_static _ _ _ DD) as STA.
  assert (DF : md_ast d = make_timestamp (c_ast c) /\ md_mpdur d = option_map seconds_to_iso_duration_Q (c_mpdur c) /\
    md_tsbd d = seconds_to_iso_duration b /\ md_ato d = c_ato c /\ md_lowlat d = false).
  { clear - DD TS S. unfold mpd_data_of in DD. rewrite TS, (ss_chunk c S) in DD. injection DD as <-. cbn. auto. }
  destruct DF as (DF1 & DF2 & DF3 & DF4 & DF5).
  destruct V as [B P A T R early ast_s ast depth len ps_s pz id media init num dur scale secs pto
    V1 V2 V3 V4 V5 V6 V7 V8 V9 V10 V11 V12 V13 V14 V15 V16 V17 V18 V19 V20 V21].
  cbn [vw_base vw_early vw_ast vw_depth vw_length vw_period vw_number] in *.
  rewrite BU in V1. injection V1 as <-. split; [reflexivity|].
  assert (EGx : forall k, get k x = get k root) by (intros k; rewrite EX; apply get_set_kids).
  rewrite EGx, AST, DF1 in V3. injection V3 as <-.
  assert (EA : ast = c_ast c).
  { destruct V4 as (y & m & dd & hh & mi & s & R1 & _ & R2). destruct (C32_calendar_pf (c_ast c) (ss_ast c S)) as (y' & m' & d' & hh' & mi' & s' & Q1 & _ & Q2).
    rewrite Q1 in R1. injection R1 as <- <- <- <- <- <-. congruence. }
  split; [exact EA|]. split.
  { destruct (ss_ato c S) as (a' & m & A1 & A2 & A3). rewrite AT in A1. injection A1 as <-.
    unfold early_of in V2. unfold baseurl_elem in V2. rewrite DF5, DF4, AT in V2. rewrite (micro_exact a m A3) in V2.
    replace (m =? -1000000) with false in V2 by lia. destruct (Z.ltb_spec 0 m) as [LT|LE].
    - change (read_decimal (print_f a) = Some early) in V2.
      destruct (read_print_f a m A2 A3) as (q & Q1 & Q2). rewrite Q1 in V2. injection V2 as <-. exact Q2.
    - assert (m = 0) by lia. subst m. cbn [app] in V2.
      assert (E0 : early = 0%Q) by (destruct (md_atc d); exact V2). rewrite E0, A3. reflexivity. }
  split.
  { assert (exists p, In p ps /\ period_for c p period P).
    { clear - F V7. revert V7. induction F; intros I; [contradiction|]. destruct I as [->|I]; [exists x0; split; [left; reflexivity|assumption]|].
      destruct (IHF I) as (p & H1 & H2). exists p. split; [right; exact H1|exact H2]. }
    destruct H as (p & IP & PF). destruct (PD p IP) as (k & z & K1 & K2 & _ & K4).
    assert (EZ : pz = z).
    { rewrite (pf_start _ _ _ _ PF), K2 in V8. assert (E : ps_s = "PT" ++ print_Z z ++ "S") by congruence. rewrite E in V9.
      destruct (Z.lt_ge_cases z 0) as [N|N].
      - exfalso. rewrite read_PT_neg in V9 by exact N. injection V9 as <-. lia.
      - rewrite read_PT in V9 by exact N. injection V9 as <-. reflexivity. }
    subst pz. specialize (K4 P0).
    assert (exists a, adaptation_for c p a A).
    { clear - PF V10. pose proof (pf_sets _ _ _ _ PF) as Q. revert V10. induction Q; intros I; [contradiction|]. destruct I as [->|I]; eauto. }
    destruct H as (ad & PA). assert (exists t, template_for c p t T).
    { clear - PA V13. pose proof (af_templates _ _ _ _ PA) as Q. revert V13. induction Q; intros I; [contradiction|]. destruct I as [->|I]; eauto. }
    destruct H as (t & PT). unfold int_or in V16. rewrite (tf_number _ _ _ _ PT), K1 in V16.
    assert (EN : num = effective_number k).
    { unfold effective_number. destruct (Z.eqb_spec k (-1)) as [E|N]; [rewrite E in V16; exact V16|].
      destruct (String.eqb_spec (print_Z k) "-1") as [Q|Q].
      - change "-1"%string with (print_Z (-1)) in Q. apply print_Z_inj in Q. contradiction.
      - rewrite py_int_print in V16. injection V16 as <-. reflexivity. }
    rewrite EN. exact K4. }
  unfold opt_duration in V5, V6. rewrite EGx, DEP, DF2 in V5. rewrite EGx, LEN, DF2 in V6.
  destruct (ss_end c S) as [(E1 & E2)|(E1 & E2 & k & E3 & E4)].
  - left. rewrite E2 in V5, V6. cbn [option_map] in V5, V6.
    assert (SF : md_static d = false).
    { destruct (md_static d); [|reflexivity]. destruct (proj1 STA eq_refl) as (st & Q & _). rewrite E1 in Q. discriminate. }
    rewrite SF in V5. cbn [orb] in V5. rewrite DF3 in V5. destruct V5 as (z & Q & ->). rewrite C31_denotes_pf in Q by exact B0. injection Q as <-. auto.
  - right. rewrite E4 in V5, V6. cbn [option_map] in V5, V6. rewrite orb_true_r, (NB E1) in V5.
    destruct V6 as (z & Q & ->). rewrite iso_integer, C31_denotes_pf in Q by nia. injection Q as <-. eauto 8.
Qed.

(** The configuration of a media request of the session, at another moment. *)
Lemma player_config : forall s r0 r opts first name mfile t0 t c vc rp file ct m,
  Forall (fun kv => str_in (fst kv) url_cfg_keys = true) opts -> plain_name name ->
  Forall no_slash (map opt_text opts) -> no_slash name -> no_slash first -> no_slash mfile -> no_slash (hr_host r0) ->
  Forall clock_free (manifest_parts opts name mfile) ->
  hr_path r0 = "/" ++ join "/" (first :: manifest_parts opts name mfile) ->
  provider_config s r0 t0 = Ok c ->
  st_vod s name = Ok vc -> split_dunder rp = [rp] -> content_type_for_rep (v_media vc) rp = Some (ct, m) ->
  no_slash rp -> no_slash file ->
  for_url r (c_base_url c ++ rp ++ "/" ++ file) ->
  exists p, provider_config s r t = Ok (refile rp file [mkRep rp ct (m_timescale m)] (set_publish_time p c)) /\
    path_parts r = "" :: first :: media_parts opts name rp file.
Proof.
  intros s r0 r opts first name mfile t0 t c vc rp file ct m FO PN SO SN SF SM SH CF HP PC VC SD CT NR NF (EU & SR & PP).
  assert (P0 : path_parts r0 = "" :: first :: manifest_parts opts name mfile).
  { unfold path_parts. rewrite HP, split_slash, split_join; [reflexivity|discriminate|].
    constructor; [exact SF|]. unfold manifest_parts. apply Forall_app. split; [exact SO|]. repeat constructor; assumption. }
  unfold provider_config in PC. rewrite P0 in PC.
  set (base := (if hr_https r0 then "https" else "http") ++ "://" ++ hr_host r0 ++ "/" ++ first ++ "/") in *.
  assert (EB : base = join "/" [if hr_https r0 then "https:" else "http:"; ""; hr_host r0; first] ++ "/").
  { unfold base. destruct (hr_https r0); cbn [join append]; rewrite !string_app_assoc; reflexivity. }
  rewrite (manifest_base _ _ _ _ _ _ _ FO PN PC) in EU.
  assert (SP : split_all "/" (((base ++ join "/" (map opt_text opts ++ [name])%list ++ "/") ++ rp ++ "/" ++ file)) =
    (((if hr_https r0 then "https:" else "http:") :: "" :: hr_host r0 :: [first]) ++ media_parts opts name rp file)%list).
  { set (bparts := ((if hr_https r0 then "https:" else "http:") :: "" :: hr_host r0 :: [first])) in *.
    rewrite <- (split_join (bparts ++ media_parts opts name rp file)).
    - f_equal. rewrite EB. unfold media_parts.
      rewrite (join_app bparts (map opt_text opts ++ [name; rp; file])%list); [|discriminate|destruct (map opt_text opts); discriminate].
      replace (map opt_text opts ++ [name; rp; file])%list with ((map opt_text opts ++ [name]) ++ [rp; file])%list
        by (rewrite <- app_assoc; reflexivity).
      rewrite (join_app (map opt_text opts ++ [name])%list [rp; file]); [|destruct (map opt_text opts); discriminate|discriminate].
      rewrite !string_app_assoc. reflexivity.
    - discriminate.
    - apply Forall_app. split.
      + unfold bparts. repeat constructor; try assumption; destruct (hr_https r0); unfold no_slash; cbn; intuition discriminate.
      + unfold media_parts. apply Forall_app. split; [exact SO|]. repeat constructor; assumption. }
  rewrite EU in SP. destruct (url_parts (hr_https r0) (hr_host r0) r [first] _ SH SR PP SP) as (E1 & E2 & E3). cbn [app] in E3.
  destruct (process_url_clock _ _ _ _ (py_int_of_Q t) _ CF PC) as (p & PC2). exists p. split; [|exact E3].
  unfold provider_config. rewrite E3, E1, E2. fold base.
  exact (session_same _ _ _ _ _ rp file _ _ _ _ _ FO PN PC2 VC SD CT).
Qed.

(** The player has the manifest [x] of the session, fetched with request [r0] at
    time [t0], and looks at one video or audio representation in it. *)
Record playing (s : site) (r0 : http_request) (opts : list (string * string)) (name : string) (t0 : Q)
    (c : config) (vc : vodcfg) (x : xml) (v : view) (ct : string) (m : media) (first mfile : string) : Prop := {
  pl_opts : Forall (fun kv => str_in (fst kv) url_cfg_keys = true) opts;
  pl_texts : Forall no_slash (map opt_text opts);
  pl_name : plain_name name /\ no_slash name;
  pl_first : no_slash first;
  pl_file : no_slash mfile;
  pl_host : no_slash (hr_host r0);
  pl_clock : Forall clock_free (manifest_parts opts name mfile);
  pl_path : hr_path r0 = "/" ++ join "/" (first :: manifest_parts opts name mfile);
  pl_site : site_ok s;
  pl_vod : st_vod s name = Ok vc;
  pl_config : provider_config s r0 t0 = Ok c;
  pl_session : live_session c;
  pl_manifest : exists e src progs period rest, get_mpd c e src (py_int_of_Q t0) = Ok x /\
    x_kids src = (progs ++ period :: rest)%list /\
    Forall (fun y => x_tag y = "ProgramInformation") progs /\ x_tag period = "Period" /\
    Forall (fun y => ~ In (x_tag y) ["Period"; "BaseURL"]) rest /\
    (c_stop_time c <> None -> get "timeShiftBufferDepth" src = None);
  pl_sees : sees x v;
  pl_period : 0 <= vw_period v;
  pl_seconds : vw_seconds v = v_dur vc;
  pl_rep : content_type_for_rep (v_media vc) (vw_id v) = Some (ct, m) /\ ct <> "subtitles";
  pl_id : split_dunder (vw_id v) = [vw_id v] /\ no_slash (vw_id v)
}.

(** The server's conditions are those of the player. *)
Lemma window_same : forall c a b v n t, live_session c -> 0 < c_seg_dur c -> c_tsbd c = Some b -> c_ato c = Some a -> first_nr c <= n ->
  vw_ast v = c_ast c -> (vw_early v == a)%Q -> vw_period v = (vw_number v - first_nr c) * c_seg_dur c -> vw_seconds v = c_seg_dur c ->
  ((c_stop_time c = None /\ vw_depth v = Some b /\ vw_length v = None) \/
   (c_stop_time c <> None /\ vw_depth v = None /\ 0 <= c_start_nr c /\
    exists k, 0 < k /\ c_mpdur c = Some (inject_Z (k * c_seg_dur c)) /\ vw_length v = Some (k * c_seg_dur c))) ->
  (ProxySpec.session_started c t /\ session_not_over c t /\ available c n t <-> may_request v n t).
Proof.
  intros c a b v n t S D TS AT LN E1 E2 E3 E4 EN.
  assert (CA : complete_at v n = seg_end c n).
  { unfold complete_at, seg_end. rewrite E1, E3, E4. ring. }
  assert (SU : complete_at v n + vw_seconds v = seg_end c n + c_seg_dur c) by (rewrite CA, E4; reflexivity).
  assert (ST : (inject_Z (seg_end c n) - a <= t)%Q -> ProxySpec.session_started c t).
  { intros H. unfold ProxySpec.session_started. rewrite AT.
    assert (c_ast c + c_seg_dur c <= seg_end c n) by (unfold seg_end; nia).
    apply (proj2 (inject_Z_le _ _)) in H0. lra. }
  assert (NO : session_not_over c t) by (intros e E; rewrite (ss_aet c S) in E; discriminate).
  unfold available, within_end, in_time, may_request. rewrite AT, (ss_last c S), SU, CA.
  destruct EN as [(N1 & N2 & N3)|(N1 & N2 & N3 & k & N4 & N5 & N6)].
  - assert (NA : forall k, ~ stop_limit c k) by (intros k (H & _); apply H; exact N1).
    rewrite N2, N3. split.
    + intros (_ & _ & _ & _ & A & B). split; [rewrite E2; exact A|]. split; [|discriminate].
      intros b' Q. injection Q as <-. destruct B as [(k & B & _)|B]; [exfalso; exact (NA k B)|]. exact (B b TS).
    + intros (A & B & _). rewrite E2 in A. split; [exact (ST A)|]. split; [exact NO|]. split; [exact LN|]. split.
      * split; [intros k H; exfalso; exact (NA k H)|intros H; exfalso; apply H; reflexivity].
      * split; [exact A|]. right. intros b' Q. rewrite TS in Q. injection Q as <-. exact (B b eq_refl).
  - assert (FN : first_nr c = c_start_nr c).
    { unfold first_nr. rewrite (ss_toff c S). replace (c_start_nr c =? -1) with false by lia. reflexivity. }
    assert (SL : forall j, stop_limit c j <-> j = first_nr c + k).
    { intros j. unfold stop_limit. rewrite (ss_toff c S). replace (c_start_nr c =? -1) with false by lia.
      split.
      - intros (_ & m & M & ->). rewrite N5 in M. injection M as <-. rewrite Qfloor_div, Z.div_mul by lia. lia.
      - intros ->. split; [exact N1|]. exists (inject_Z (k * c_seg_dur c)). split; [exact N5|]. rewrite Qfloor_div, Z.div_mul by lia. lia. }
    assert (LM : vw_period v + (n - vw_number v) * vw_seconds v < k * c_seg_dur c <-> n < first_nr c + k).
    { rewrite E3, E4. split; intros H; nia. }
    rewrite N2, N6. split.
    + intros (_ & _ & _ & (A1 & _) & A & _). split; [rewrite E2; exact A|]. split; [discriminate|].
      intros m Q. injection Q as <-. apply LM. apply (A1 _ (proj2 (SL _) eq_refl)). lia.
    + intros (A & _ & B). rewrite E2 in A. split; [exact (ST A)|]. split; [exact NO|]. split; [exact LN|]. split.
      * split; [|intros H; exfalso; apply H; reflexivity]. intros j H _. apply SL in H. subst j. apply LM. exact (B _ eq_refl).
      * split; [exact A|]. left. exists (first_nr c + k). split; [apply SL; reflexivity|lia].
Qed.

(** ** C69: a player that reads the manifest of such a session and requests
    segments as the manifest says gets each of them, and the right one, exactly
    while the manifest says it is available. *)
Lemma C69_media_partial_pf : forall limit s sid history r0 opts first name mfile t0 c vc x v ct m,
  playing s r0 opts name t0 c vc x v ct m first mfile ->
  forall n r t l, for_url r (media_url v n) -> hr_range r = None -> admitted limit r t -> (0 <= t)%Q ->
  fill (vw_id v) (print_Z n) (vw_media v) = vw_id v ++ "/" ++ print_Z n ++ ".m4s" ->
  Z.max 0 (vw_number v) <= n < 4294967296 ->
  announceable c (mkRep (vw_id v) ct (m_timescale m)) n ->
  let i := vw_period v / vw_seconds v + (n - vw_number v) in
  let loops := i / v_n vc in
  st_files s name (vw_id v) (v_first vc + i mod v_n vc) ".m4s" = Ok (encs l) ->
  sendable (loops * (v_n vc * v_dur vc) * m_timescale m) l ->
  exists reply, fst (application limit s r t sid (run limit s history [])) = Ok reply /\
    (may_request v n t ->
       rp_status reply = 200 /\ exists out, rp_body reply = [encs out] /\
         sent c (mkRep (vw_id v) ct (m_timescale m)) n (py_int_of_Q t) false l out /\
         (* the stored segments lie at multiples of the duration from [o] on, with any deviations: the sent one lies at its
            presentation time, with the same deviations *)
         (forall o ts, decodes l (map (fun u => o + i mod v_n vc * vw_seconds v * m_timescale m + u) ts) ->
                       decodes out (map (fun u => o + presented v n (m_timescale m) + u) ts))) /\
    (~ may_request v n t -> rp_status reply = 404).
Proof.
  intros limit s sid history r0 opts first name mfile t0 c vc x v ct m PL n r t l FU HR AD T0 FL NB AN i loops F SE.
  destruct PL as [FO SO (PN & SN) SF SM SH CF HP SK VC PC S (e & src & progs & period & rest & G & K & FP & TP & NR & NSRC) V VP VS (CT & NS) (SD & NI)].
  destruct (provider_wf _ _ _ _ SK PC) as (W & _). assert (Wd := wf_dur c W). assert (Wn := wf_n c W).
  destruct (ss_depth c S) as (b & TS & B0). destruct (ss_ato c S) as (a & ma & AT & _).
  destruct (seen _ _ _ _ _ _ _ _ b a v S Wd TS B0 AT K FP TP NR NSRC G V VP) as (E1 & E2 & E3 & E4 & E5).
  set (file := print_Z n ++ ".m4s") in *. set (rp := vw_id v) in *.
  assert (NF : no_slash file).
  { apply no_slash_app; [|unfold no_slash; cbn; intuition discriminate].
    exact (number_no_slash "" n ltac:(unfold no_slash; cbn; tauto)). }
  unfold media_url in FU. fold rp in FU, FL. rewrite E1, FL in FU.
  destruct (player_config s r0 r opts first name mfile t0 t c vc rp file ct m FO PN SO SN SF SM SH CF HP PC VC SD CT NI NF FU) as (p & PC2 & PP).
  set (c2 := refile rp file [mkRep rp ct (m_timescale m)] (set_publish_time p c)) in *.
  assert (MR : media_request c2 n).
  { unfold c2, file. replace (print_Z n) with (print_nat n) by (unfold print_Z; destruct (Z.ltb_spec n 0); [lia|reflexivity]).
    apply refile_request; [lia|]. intros u. change (c_multi_url (set_publish_time p c)) with (c_multi_url c). rewrite (ss_urls c S). discriminate. }
  assert (VF : c_seg_dur c = v_dur vc /\ c_vod_n c = v_n vc /\ c_vod_first c = v_first vc /\ c_content_name c = name).
  { pose proof PC as PC'. unfold provider_config, path_parts in PC'. rewrite HP, split_slash, split_join in PC'; [|discriminate|].
    2:{ constructor; [exact SF|]. unfold manifest_parts. apply Forall_app. split; [exact SO|]. repeat constructor; assumption. }
    destruct (SK _ _ VC) as (D & N). destruct (manifest_vod _ _ _ _ _ _ _ _ FO PN PC' VC D N) as (g1 & g2 & g3 & g4 & _). auto. }
  destruct VF as (f1 & f2 & f3 & f4).
  assert (WC : wf_cfg c2) by (destruct (provider_wf _ _ _ _ SK PC2) as (WC & _); exact WC).
  assert (FN : first_nr c2 = first_nr c) by reflexivity.
  assert (EI : i = n - first_nr c).
  { unfold i. rewrite E4, VS, f1, Z.div_mul by lia. lia. }
  assert (LN : first_nr c <= n).
  { assert (0 <= vw_number v - first_nr c) by nia. lia. }
  assert (MS : media_start c2 n = i * v_dur vc).
  { unfold media_start, media_time_at_ast. change (c_timeoffset c2) with (c_timeoffset c). rewrite (ss_toff c S), FN.
    change (c_seg_dur c2) with (c_seg_dur c). rewrite f1, EI. lia. }
  rewrite f1 in Wd. rewrite f2 in Wn.
  assert (SF2 : source_file c2 n = v_first vc + i mod v_n vc).
  { unfold source_file. rewrite MS. change (c_seg_dur c2) with (c_seg_dur c). change (c_vod_n c2) with (c_vod_n c). change (c_vod_first c2) with (c_vod_first c).
    rewrite f1, f2, f3, Z.div_mul by lia. reflexivity. }
  assert (SHI : shift c2 n = loops * (v_n vc * v_dur vc)).
  { unfold shift. rewrite MS. change (c_seg_dur c2) with (c_seg_dur c). change (c_vod_n c2) with (c_vod_n c). rewrite f1, f2.
    rewrite (Z.mul_comm (v_dur vc) (v_n vc)). rewrite Z.div_mul_cancel_r by lia. reflexivity. }
  assert (NC : not_chunked c2) by (intros q Q; change (c_chunkdur c2) with (c_chunkdur c) in Q; rewrite (ss_chunk c S) in Q; discriminate).
  assert (F2 : st_files s (c_content_name c2) (c_rel_path c2) (source_file c2 n) ".m4s" = Ok (encs l)).
  { rewrite SF2. change (c_content_name c2) with (c_content_name c). rewrite f4. exact F. }
  destruct (C68_window_pf limit s r t sid history c2 (mkRep rp ct (m_timescale m)) n l AD HR SK PC2 MR NC eq_refl NS (ss_sidx c S) ltac:(lia) AN F2)
    as (reply & H & K1 & K2).
  { rewrite SHI. exact SE. }
  exists reply. split; [exact H|].
  assert (WS := window_same c a b v n t S ltac:(lia) TS AT LN E2 E3 E4 ltac:(congruence) E5).
  change (ProxySpec.session_started c2 t /\ session_not_over c2 t /\ available c2 n t)
    with (ProxySpec.session_started c t /\ session_not_over c t /\ available c n t) in K1, K2.
  split.
  - intros MY. assert (ST : rp_status reply = 200) by (apply K1, WS, MY).
    split; [exact ST|].
    destruct (C67_single_pf limit s r t sid history c2 (mkRep rp ct (m_timescale m)) n false l reply AD HR SK T0 PC2 (mr_ext c2 n MR) NC (mr_nr c2 n MR) eq_refl NS) as [Z|(_ & _ & _ & _ & out & BD & SO2)]; auto.
    + apply gd_plain. intros u. change (c_multi_url c2) with (c_multi_url c). rewrite (ss_urls c S). discriminate.
    + apply SE.
    + congruence.
    + exists out. split; [exact BD|]. split; [exact SO2|]. intros o ts TS'. pose proof (sent_times _ _ _ _ _ _ _ _ SO2 TS') as KT.
      cbn [rep_timescale] in KT. rewrite SHI, map_map in KT. erewrite map_ext; [exact KT|]. intros u. cbv beta.
      unfold presented. rewrite VS.
      replace (vw_period v + (n - vw_number v) * v_dur vc) with (i * v_dur vc) by (rewrite EI, E4, f1; ring).
      unfold loops. pose proof (Z.div_mod i (v_n vc) ltac:(lia)) as DM. rewrite DM at 1. ring.
  - intros O. apply K2. intros A. apply O, WS, A.
Qed.

(** The media time at the start of the period is announced as presentation time
    offset, in seconds; this is right if the template counts in seconds. *)
Lemma C69_offset_partial_pf : forall c e src t0 x progs period rest v,
  live_session c -> 0 < c_seg_dur c -> c_peroff c < 0 ->
  x_kids src = (progs ++ period :: rest)%list ->
  Forall (fun y => x_tag y = "ProgramInformation") progs -> x_tag period = "Period" ->
  Forall (fun y => x_tag y <> "Period") rest ->
  (forall A T, In A (children "AdaptationSet" period) -> In T (children "SegmentTemplate" A) ->
     get "presentationTimeOffset" T = None /\ (c_pph c <> -1 -> int_or "timescale" 1 T 1)) ->
  get_mpd c e src t0 = Ok x -> sees x v -> 0 <= vw_period v ->
  (vw_offset v == inject_Z (vw_period v))%Q.
Proof.
  intros c e src t0 x progs period rest v S D PO K FP TP NR HT G V P0.
  assert (L : c_stl_loss c = false \/ c_multi_url c = []) by (right; apply S).
  pose proof G as GM. apply get_mpd_plain in GM; [|exact L].
  destruct (generate_inv _ _ _ _ _ _ GM) as (d & sn & mup & ps & root & kids & DD & SN & GP & PM & _ & EX).
  destruct (session_periods _ _ _ _ _ S D SN GP) as (NE & PD).
  destruct (C62_periods_partial_pf c e src t0 x progs period rest sn mup ps K FP TP NR L (ss_tl c S) (ss_tlnr c S) G SN GP NE) as (F & _).
  destruct V as [B P A T R early ast_s ast depth len ps_s pz id media init num dur scale secs pto
    V1 V2 V3 V4 V5 V6 V7 V8 V9 V10 V11 V12 V13 V14 V15 V16 V17 V18 V19 V20 V21].
  cbn [vw_period vw_offset] in *.
  assert (exists p, In p ps /\ period_for c p period P).
  { clear - F V7. revert V7. induction F; intros I; [contradiction|]. destruct I as [->|I]; [exists x0; split; [left; reflexivity|assumption]|].
    destruct (IHF I) as (p & H1 & H2). exists p. split; [right; exact H1|exact H2]. }
  destruct H as (p & IP & PF). destruct (PD p IP) as (k & z & _ & K2 & K3 & _).
  assert (EZ : pz = z).
  { rewrite (pf_start _ _ _ _ PF), K2 in V8. assert (E : ps_s = "PT" ++ print_Z z ++ "S") by congruence. rewrite E in V9.
    destruct (Z.lt_ge_cases z 0) as [N|N].
    - rewrite read_PT_neg in V9 by exact N. injection V9 as <-. reflexivity.
    - rewrite read_PT in V9 by exact N. injection V9 as <-. reflexivity. }
  subst pz.
  assert (exists a, In a (children "AdaptationSet" period) /\ adaptation_for c p a A).
  { clear - PF V10. pose proof (pf_sets _ _ _ _ PF) as Q. revert V10. induction Q as [|y Y l l' H0 Q IH]; intros I; [contradiction|].
    destruct I as [->|I]; [exists y; split; [left; reflexivity|exact H0]|]. destruct (IH I) as (w & W1 & W2). exists w. split; [right|]; assumption. }
  destruct H as (ad & IA & PA). assert (exists t, In t (children "SegmentTemplate" ad) /\ template_for c p t T).
  { clear - PA V13. pose proof (af_templates _ _ _ _ PA) as Q. revert V13. induction Q as [|y Y l l' H0 Q IH]; intros I; [contradiction|].
    destruct I as [->|I]; [exists y; split; [left; reflexivity|exact H0]|]. destruct (IH I) as (w & W1 & W2). exists w. split; [right|]; assumption. }
  destruct H as (t & IT & PT). destruct (HT ad t IA IT) as (H1 & H2).
  unfold int_or in V21. rewrite (tf_pto _ _ _ _ PT), K3, H1 in V21. replace (c_peroff c <? 0) with true in V21 by lia. cbn [andb] in V21.
  assert (SC : scale = 1 \/ z = 0).
  { destruct (Z.eq_dec (c_pph c) (-1)) as [E|N].
    - right. destruct (single_period c t0 E D ltac:(pose proof (ss_ad c S); lia)) as (k' & p' & SN' & GP' & _).
      rewrite SN in SN'. injection SN' as <-. rewrite GP in GP'. injection GP' as -> ->. destruct IP as [<-|[]].
      assert (E2 : pd_start p' = "PT0S").
      { clear - GP E S. unfold generate_period_data in GP. rewrite E in GP. change (Z.min (-1) 60) with (-1) in GP.
        change (negb (count_allowed (-1))) with false in GP. cbv iota in GP.
        assert (A := ss_ad c S). replace (0 <? c_insert_ad c) with false in GP by lia. cbn [bind] in GP. change (-1 =? -1) with true in GP. cbv iota in GP.
        apply bind_inv in GP. destruct GP as (q & _ & GP). injection GP as <-. reflexivity. }
      rewrite K2 in E2. assert (E3 := read_PT z P0). rewrite E2 in E3. vm_compute in E3. injection E3 as <-. reflexivity.
    - left. specialize (H2 N). unfold int_or in V18, H2.
      rewrite (tf_other _ _ _ _ PT "timescale") in V18 by (cbn; intuition discriminate). destruct (get "timescale" t); congruence. }
  destruct (no_offset (print_Z z)) eqn:NO; cbn [negb] in V21.
  - assert (z = 0).
    { unfold no_offset in NO. apply orb_prop in NO. destruct NO as [NO|NO]; apply String.eqb_eq in NO.
      - change "0" with (print_Z 0) in NO. apply print_Z_inj in NO. exact NO.
      - pose proof (py_int_print z) as Q. rewrite NO in Q. discriminate. }
    subst z pto. unfold Qdiv. ring.
  - rewrite py_int_print in V21. injection V21 as <-. destruct SC as [->|SC].
    + field.
    + subst z. discriminate NO.
Qed.

(** The initialization segment. *)
Lemma C69_init_partial_pf : forall limit s sid history r0 opts first name mfile t0 c vc x v ct m,
  playing s r0 opts name t0 c vc x v ct m first mfile ->
  forall r t l file, for_url r (init_url v) -> hr_range r = None -> admitted limit r t -> (0 <= t)%Q ->
  fill (vw_id v) "" (vw_init v) = vw_id v ++ "/" ++ file -> no_slash file -> snd (splitext file) = ".mp4" ->
  st_inits s name (vw_id v) file = Ok (encs l) -> l <> [] -> boxes_ok movie_containers header_ok l ->
  exists reply, fst (application limit s r t sid (run limit s history [])) = Ok reply /\
    ((inject_Z (vw_ast v - c_init_off c) <= t)%Q ->
       rp_status reply = 200 /\ exists out, rp_body reply = [encs out] /\ live_init l out) /\
    (~ (inject_Z (vw_ast v - c_init_off c) <= t)%Q -> rp_status reply = 404).
Proof.
  intros limit s sid history r0 opts first name mfile t0 c vc x v ct m PL r t l file FU HR AD T0 FL NF SX ST LN OK.
  destruct PL as [FO SO (PN & SN) SF SM SH CF HP SK VC PC S (e & src & progs & period & rest & G & K & FP & TP & NR & NSRC) V VP VS (CT & NS) (SD & NI)].
  destruct (provider_wf _ _ _ _ SK PC) as (W & _). assert (Wd := wf_dur c W).
  destruct (ss_depth c S) as (b & TS & B0). destruct (ss_ato c S) as (a & ma & AT & _).
  destruct (seen _ _ _ _ _ _ _ _ b a v S Wd TS B0 AT K FP TP NR NSRC G V VP) as (E1 & E2 & _).
  set (rp := vw_id v) in *.
  unfold init_url in FU. fold rp in FU, FL. rewrite E1, FL in FU.
  destruct (player_config s r0 r opts first name mfile t0 t c vc rp file ct m FO PN SO SN SF SM SH CF HP PC VC SD CT NI NF FU) as (p & PC2 & PP).
  set (c2 := refile rp file [mkRep rp ct (m_timescale m)] (set_publish_time p c)) in *.
  assert (f4 : c_content_name c = name).
  { pose proof PC as PC'. unfold provider_config, path_parts in PC'. rewrite HP, split_slash, split_join in PC'; [|discriminate|].
    2:{ constructor; [exact SF|]. unfold manifest_parts. apply Forall_app. split; [exact SO|]. repeat constructor; assumption. }
    destruct (SK _ _ VC) as (D & N). destruct (manifest_vod _ _ _ _ _ _ _ _ FO PN PC' VC D N) as (g1 & g2 & g3 & g4 & _). exact g4. }
  destruct (content_total s r t HR) as (reply & H). exists reply. rewrite (admitted_content _ _ _ _ _ _ AD). cbn [fst]. split; [exact H|].
  assert (KC := content_cases _ _ _ _ HR H). unfold respond in KC. rewrite PC2 in KC. cbn [bind] in KC.
  assert (EX : c_ext c2 = ".mp4") by (unfold c2, refile; exact SX). rewrite EX in KC. cbn in KC.
  unfold init_response, get_init in KC. rewrite EX in KC. change (c_reps c2) with [mkRep rp ct (m_timescale m)] in KC.
  change (c_ast c2) with (c_ast c) in KC. change (c_init_off c2) with (c_init_off c) in KC. change (negb (String.eqb ".mp4" ".mp4")) with false in KC. cbv iota in KC.
  rewrite E2. rewrite py_int_of_Q_nonneg in KC by exact T0.
  destruct (Z.ltb_spec (Qfloor t) (c_ast c - c_init_off c)) as [L|L]; cbn [bind] in KC.
  - split; [|intros _; exact KC]. intros A. apply (proj1 (Qfloor_lt_iff _ _)) in L. lra.
  - split; [intros _|intros O; exfalso; apply O; apply (proj1 (Qfloor_iff _ _)); exact L].
    destruct (C37_live_pf l OK) as (out & IL & LI & BL).
    change (c_rel_path c2) with rp in KC. change (c_filename c2) with file in KC. change (c_content_name c2) with (c_content_name c) in KC.
    rewrite f4, ST in KC. cbn [bind] in KC. rewrite IL in KC. cbn [bind] in KC.
    destruct (encs out) as [|b0 bs] eqn:EO.
    + exfalso. change (blen []) with 0 in BL. destruct l as [|b1 l]; [contradiction|]. clear - BL.
      cbn [encs] in BL. rewrite blen_app in BL. pose proof (blen_nonneg (encs l)) as P1.
      assert (P2 : 4 <= blen (enc b1)).
      { destruct b1 as [t1 p1|t1 ks1]; cbn [enc]; rewrite !blen_app; change (blen (be32 _)) with 4; match goal with |- context [blen t1 + blen ?q] => pose proof (blen_nonneg t1); pose proof (blen_nonneg q); lia end. }
      lia.
    + destruct KC as (K1 & K2). split; [exact K1|]. exists out. rewrite EO. split; [exact K2|exact LI].
Qed.

(** ** Concrete cases *)
(** testpic with its manifest, read by a player at second 1000; the session
    starts at 300 and numbers from 7. *)
Definition play_site : site :=
  mk_site ex_read (fun _ _ _ _ => Ok (encs ex_l))
    (fun _ _ f => if String.eqb f "init.mp4" then Ok (encs ex_init) else Err "FileNotFoundError")
    (fun _ _ _ => Err "KeyError") (fun why c now => "refused " ++ c_filename c).
Definition play_request (opts : list (string * string)) : http_request :=
  ex_request ("/livesim/" ++ join "/" (manifest_parts opts "testpic" "Manifest.mpd")) None.
Definition play_cfg (opts : list (string * string)) (now : Z) : config :=
  match provider_config play_site (play_request opts) (inject_Z now) with Ok c => c | Err _ => config_init "" end.
Definition play_env (opts : list (string * string)) : menv :=
  mk_menv ("http://h/livesim/" ++ join "/" (manifest_parts opts "testpic" "Manifest.mpd")) "http://h/livesim/" "" (fun _ => Err "IOError").
Definition play_mpd (opts : list (string * string)) (src : xml) (now : Z) : xml :=
  match get_mpd (play_cfg opts now) (play_env opts) src now with Ok x => x | Err _ => src end.
Definition play_open : list (string * string) := [("start", "300"); ("snr", "7"); ("tsbd", "30")].
Definition play_view : view :=
  mk_view "http://h/livesim/start_300/snr_7/tsbd_30/testpic/" 0 300 (Some 30) None 0
    "V2" "$RepresentationID$/$Number$.m4s" "$RepresentationID$/init.mp4" 7 6 (inject_Z 0 / inject_Z 1).
Definition open_cfg : config := Eval vm_compute in play_cfg play_open 1000.
Definition open_mpd : xml := Eval vm_compute in play_mpd play_open ex_source 1000.
Example play_sees : sees open_mpd play_view.
Proof.
  eapply (sees_intro _ (Elem "BaseURL" [] "http://h/livesim/start_300/snr_7/tsbd_30/testpic/" []) _ _ _ _ 0 _ 300 (Some 30) None _ 0 "V2" _ _ 7 6 1 6 0).
  - vm_compute. reflexivity.
  - vm_compute. reflexivity.
  - vm_compute. reflexivity.
  - exists 1970, 1, 1, 0, 5, 0. split; [vm_compute; reflexivity|]. split; [|vm_compute; reflexivity]. vm_compute. intuition discriminate.
  - exists 30. split; [vm_compute; reflexivity|reflexivity].
  - vm_compute. reflexivity.
  - vm_compute. left. reflexivity.
  - vm_compute. reflexivity.
  - vm_compute. reflexivity.
  - vm_compute. right. left. reflexivity.
  - vm_compute. right. left. reflexivity.
  - vm_compute. reflexivity.
  - vm_compute. left. reflexivity.
  - vm_compute. reflexivity.
  - vm_compute. reflexivity.
  - vm_compute. reflexivity.
  - vm_compute. reflexivity.
  - vm_compute. reflexivity.
  - lia.
  - reflexivity.
  - vm_compute. reflexivity.
Qed.
(** Sixty periods an hour, segments available 1.5 s early: the period from 960
    on in the manifest of second 1000. *)
Definition play_periods : list (string * string) := [("periods", "60"); ("ato", "1.5"); ("tsbd", "30")].
Definition early_number : Q := Eval vm_compute in match read_decimal "1.500000" with Some q => q | None => 0%Q end.
Definition periods_view : view :=
  mk_view "http://h/livesim/periods_60/ato_1.5/tsbd_30/testpic/" early_number 0 (Some 30) None 960
    "V2" "$RepresentationID$/$Number$.m4s" "$RepresentationID$/init.mp4" 160 6 (inject_Z 960 / inject_Z 1).
Definition periods_cfg : config := Eval vm_compute in play_cfg play_periods 1000.
Definition periods_mpd : xml := Eval vm_compute in play_mpd play_periods ex_source 1000.
Example periods_sees : sees periods_mpd periods_view.
Proof.
  eapply (sees_intro _ (Elem "BaseURL" [("availabilityTimeOffset", "1.500000")] "http://h/livesim/periods_60/ato_1.5/tsbd_30/testpic/" []) _ _ _ _ early_number _ 0 (Some 30) None _ 960 "V2" _ _ 160 6 1 6 960).
  - vm_compute. reflexivity.
  - vm_compute. reflexivity.
  - vm_compute. reflexivity.
  - exists 1970, 1, 1, 0, 0, 0. split; [vm_compute; reflexivity|]. split; [|vm_compute; reflexivity]. vm_compute. intuition discriminate.
  - exists 30. split; [vm_compute; reflexivity|reflexivity].
  - vm_compute. reflexivity.
  - vm_compute. left. reflexivity.
  - vm_compute. reflexivity.
  - vm_compute. reflexivity.
  - vm_compute. right. left. reflexivity.
  - vm_compute. right. left. reflexivity.
  - vm_compute. reflexivity.
  - vm_compute. left. reflexivity.
  - vm_compute. reflexivity.
  - vm_compute. reflexivity.
  - vm_compute. reflexivity.
  - vm_compute. reflexivity.
  - vm_compute. reflexivity.
  - lia.
  - reflexivity.
  - vm_compute. reflexivity.
Qed.
(** From 300 until 897, rounded up to 900; the manifest is static by now. *)
Definition play_stop : list (string * string) := [("start", "300"); ("stop", "897"); ("snr", "7")].
Definition stop_view : view :=
  mk_view "http://h/livesim/start_300/stop_897/snr_7/testpic/" 0 300 None (Some 600) 0
    "V2" "$RepresentationID$/$Number$.m4s" "$RepresentationID$/init.mp4" 7 6 (inject_Z 0 / inject_Z 1).
Definition stop_cfg : config := Eval vm_compute in play_cfg play_stop 1000.
Definition stop_mpd : xml := Eval vm_compute in play_mpd play_stop ex_source 1000.
Example stop_sees : sees stop_mpd stop_view.
Proof.
  eapply (sees_intro _ (Elem "BaseURL" [] "http://h/livesim/start_300/stop_897/snr_7/testpic/" []) _ _ _ _ 0 _ 300 None (Some 600) _ 0 "V2" _ _ 7 6 1 6 0).
  - vm_compute. reflexivity.
  - vm_compute. reflexivity.
  - vm_compute. reflexivity.
  - exists 1970, 1, 1, 0, 5, 0. split; [vm_compute; reflexivity|]. split; [|vm_compute; reflexivity]. vm_compute. intuition discriminate.
  - vm_compute. reflexivity.
  - exists 600. split; [vm_compute; reflexivity|reflexivity].
  - vm_compute. left. reflexivity.
  - vm_compute. reflexivity.
  - vm_compute. reflexivity.
  - vm_compute. right. left. reflexivity.
  - vm_compute. right. left. reflexivity.
  - vm_compute. reflexivity.
  - vm_compute. left. reflexivity.
  - vm_compute. reflexivity.
  - vm_compute. reflexivity.
  - vm_compute. reflexivity.
  - vm_compute. reflexivity.
  - vm_compute. reflexivity.
  - lia.
  - reflexivity.
  - vm_compute. reflexivity.
Qed.
Lemma play_site_ok : site_ok play_site.
Proof.
  intros name v H. cbn in H. unfold ex_read in H. destruct (String.eqb name "testpic"); [|discriminate].
  injection H as <-. vm_compute. split; reflexivity.
Qed.
Definition play_media : media := mkMedia 90000 ["V1"; "V2"] None None.
Example play_playing :
  playing play_site (play_request play_open) play_open "testpic" 1000 open_cfg ex_vod open_mpd play_view "video" play_media "livesim" "Manifest.mpd".
Proof.
  constructor.
  - repeat constructor.
  - repeat constructor; unfold no_slash; vm_compute; intuition discriminate.
  - split; [vm_compute; intuition discriminate|unfold no_slash; vm_compute; intuition discriminate].
  - unfold no_slash; vm_compute; intuition discriminate.
  - unfold no_slash; vm_compute; intuition discriminate.
  - unfold no_slash; vm_compute; intuition discriminate.
  - repeat constructor; intros k w K; vm_compute in K; try discriminate; injection K as <- <-; vm_compute; intuition discriminate.
  - reflexivity.
  - exact play_site_ok.
  - reflexivity.
  - vm_compute. reflexivity.
  - constructor; try reflexivity; try (vm_compute; discriminate).
    + left. reflexivity.
    + exists 0%Q, 0. split; [reflexivity|]. split; [lia|reflexivity].
    + exists 30. split; [reflexivity|lia].
    + left. split; reflexivity.
  - exists (play_env play_open), ex_source. do 3 eexists. split; [vm_compute; reflexivity|].
    split; [|split; [|split; [|split]]]; [instantiate (3 := [_]); reflexivity|repeat constructor|reflexivity|constructor|reflexivity].
  - exact play_sees.
  - vm_compute; discriminate.
  - reflexivity.
  - split; [reflexivity|discriminate].
  - split; [reflexivity|]. unfold no_slash; vm_compute; intuition discriminate.
Qed.
Example periods_playing :
  playing play_site (play_request play_periods) play_periods "testpic" 1000 periods_cfg ex_vod periods_mpd periods_view "video" play_media "livesim" "Manifest.mpd".
Proof.
  constructor.
  - repeat constructor.
  - repeat constructor; unfold no_slash; vm_compute; intuition discriminate.
  - split; [vm_compute; intuition discriminate|unfold no_slash; vm_compute; intuition discriminate].
  - unfold no_slash; vm_compute; intuition discriminate.
  - unfold no_slash; vm_compute; intuition discriminate.
  - unfold no_slash; vm_compute; intuition discriminate.
  - repeat constructor; intros k w K; vm_compute in K; try discriminate; injection K as <- <-; vm_compute; intuition discriminate.
  - reflexivity.
  - exact play_site_ok.
  - reflexivity.
  - vm_compute. reflexivity.
  - constructor; try reflexivity; try (vm_compute; discriminate).
    + right. exists 60, 60. split; [repeat split; try reflexivity; try (vm_compute; congruence); left; reflexivity|].
      split; [exists 10; reflexivity|]. split; [reflexivity|]. split; [reflexivity|vm_compute; discriminate].
    + eexists _, 1500000. split; [vm_compute; reflexivity|]. split; [lia|reflexivity].
    + exists 30. split; [reflexivity|lia].
    + left. split; reflexivity.
  - exists (play_env play_periods), ex_source. do 3 eexists. split; [vm_compute; reflexivity|].
    split; [|split; [|split; [|split]]]; [instantiate (3 := [_]); reflexivity|repeat constructor|reflexivity|constructor|reflexivity].
  - exact periods_sees.
  - vm_compute; discriminate.
  - reflexivity.
  - split; [reflexivity|discriminate].
  - split; [reflexivity|]. unfold no_slash; vm_compute; intuition discriminate.
Qed.
Example stop_playing :
  playing play_site (play_request play_stop) play_stop "testpic" 1000 stop_cfg ex_vod stop_mpd stop_view "video" play_media "livesim" "Manifest.mpd".
Proof.
  constructor.
  - repeat constructor.
  - repeat constructor; unfold no_slash; vm_compute; intuition discriminate.
  - split; [vm_compute; intuition discriminate|unfold no_slash; vm_compute; intuition discriminate].
  - unfold no_slash; vm_compute; intuition discriminate.
  - unfold no_slash; vm_compute; intuition discriminate.
  - unfold no_slash; vm_compute; intuition discriminate.
  - repeat constructor; intros k w K; vm_compute in K; try discriminate; injection K as <- <-; vm_compute; intuition discriminate.
  - reflexivity.
  - exact play_site_ok.
  - reflexivity.
  - vm_compute. reflexivity.
  - constructor; try reflexivity; try (vm_compute; discriminate).
    + left. reflexivity.
    + exists 0%Q, 0. split; [reflexivity|]. split; [lia|reflexivity].
    + exists 600. split; [reflexivity|lia].
    + right. split; [discriminate|]. split; [vm_compute; discriminate|]. exists 100. split; [lia|reflexivity].
  - exists (play_env play_stop), ex_source. do 3 eexists. split; [vm_compute; reflexivity|].
    split; [|split; [|split; [|split]]]; [instantiate (3 := [_]); reflexivity|repeat constructor|reflexivity|constructor|reflexivity].
  - exact stop_sees.
  - vm_compute; discriminate.
  - reflexivity.
  - split; [reflexivity|discriminate].
  - split; [reflexivity|]. unfold no_slash; vm_compute; intuition discriminate.
Qed.
(** Segment 607 of the open session is the first stored segment in the second
    loop; it is complete at 3906 and sent until 3942. *)
Example C69_media_case :
  let r := ex_request "/livesim/start_300/snr_7/tsbd_30/testpic/V2/607.m4s" None in
  let i := vw_period play_view / vw_seconds play_view + (607 - vw_number play_view) in
  for_url r (media_url play_view 607) /\ hr_range r = None /\ admitted 0 r 3910 /\
  fill (vw_id play_view) (print_Z 607) (vw_media play_view) = vw_id play_view ++ "/" ++ print_Z 607 ++ ".m4s" /\
  announceable open_cfg (mkRep (vw_id play_view) "video" 90000) 607 /\
  st_files play_site "testpic" "V2" (v_first ex_vod + i mod v_n ex_vod) ".m4s" = Ok (encs ex_l) /\
  sendable (i / v_n ex_vod * (v_n ex_vod * v_dur ex_vod) * 90000) ex_l /\
  may_request play_view 607 3910 /\ ~ may_request play_view 607 3905 /\ ~ may_request play_view 607 3943 /\
  decodes ex_l (map (fun u => 0 + i mod v_n ex_vod * vw_seconds play_view * 90000 + u) [90000]) /\
  presented play_view 607 90000 = 3600 * 90000.
Proof.
  cbn zeta. split.
  { split; [vm_compute; reflexivity|]. split; [unfold no_slash; vm_compute; intuition discriminate|]. eexists. reflexivity. }
  split; [reflexivity|]. split; [left; reflexivity|]. split; [vm_compute; reflexivity|]. split; [left; reflexivity|].
  split; [reflexivity|]. split; [apply ex_l_sendable; vm_compute; split; [discriminate|reflexivity]|].
  split. { split; [vm_compute; discriminate|]. split; [intros b H; injection H as <-; vm_compute; discriminate|discriminate]. }
  split. { intros (H & _). vm_compute in H. apply H. reflexivity. }
  split. { intros (_ & H & _). specialize (H _ eq_refl). vm_compute in H. apply H. reflexivity. }
  split; [|reflexivity].
  unfold decodes. change (tfdts ex_l) with [ex_tfdt0 90000]. constructor; [|constructor].
  change (0 + _ + 90000) with 90000. apply (DT0 [0;0;0]); [reflexivity|lia].
Qed.
(** Segment 165 of the period from 960 on: complete at 996, so requested from
    994.5 on; the last segment of the session that stops is number 106. *)
Example C69_window_cases :
  may_request periods_view 165 (1989 # 2) /\ ~ may_request periods_view 165 (1988 # 2) /\
  may_request stop_view 106 900 /\ may_request stop_view 106 5000 /\ ~ may_request stop_view 107 5000.
Proof.
  split; [|split; [|split; [|split]]].
  - split; [vm_compute; discriminate|]. split; [intros b H; injection H as <-; vm_compute; discriminate|discriminate].
  - intros (H & _). vm_compute in H. apply H. reflexivity.
  - split; [vm_compute; discriminate|]. split; [discriminate|]. intros b H. injection H as <-. reflexivity.
  - split; [vm_compute; discriminate|]. split; [discriminate|]. intros b H. injection H as <-. reflexivity.
  - intros (_ & _ & H). specialize (H _ eq_refl). vm_compute in H. discriminate.
Qed.
Example C69_offset_case : c_peroff periods_cfg < 0 /\
  forall A T, In A (children "AdaptationSet" (nth 1 (x_kids ex_source) ex_source)) -> In T (children "SegmentTemplate" A) ->
     get "presentationTimeOffset" T = None /\ (c_pph periods_cfg <> -1 -> int_or "timescale" 1 T 1).
Proof.
  split; [reflexivity|]. intros A T IA IT. cbn in IA. destruct IA as [<-|[<-|[]]]; cbn in IT; destruct IT as [<-|[]]; split; reflexivity.
Qed.
(** The same manifest with a template in ticks of 90 kHz: the offset is still
    written in seconds. *)
Fixpoint in_ticks (x : xml) : xml :=
  match x with
  | Elem t a s k => Elem t (if String.eqb t "SegmentTemplate" then ("timescale", "90000") :: ("duration", "540000") :: filter (fun p => negb (String.eqb (fst p) "duration")) a else a)
                    s (map in_ticks k)
  end.
Definition ticks_mpd : xml := Eval vm_compute in play_mpd play_periods (in_ticks ex_source) 1000.
Definition ticks_view : view :=
  mk_view "http://h/livesim/periods_60/ato_1.5/tsbd_30/testpic/" early_number 0 (Some 30) None 960
    "V2" "$RepresentationID$/$Number$.m4s" "$RepresentationID$/init.mp4" 160 6 (inject_Z 960 / inject_Z 90000).
Example ticks_sees : sees ticks_mpd ticks_view.
Proof.
  eapply (sees_intro _ (Elem "BaseURL" [("availabilityTimeOffset", "1.500000")] "http://h/livesim/periods_60/ato_1.5/tsbd_30/testpic/" []) _ _ _ _ early_number _ 0 (Some 30) None _ 960 "V2" _ _ 160 540000 90000 6 960).
  - vm_compute. reflexivity.
  - vm_compute. reflexivity.
  - vm_compute. reflexivity.
  - exists 1970, 1, 1, 0, 0, 0. split; [vm_compute; reflexivity|]. split; [|vm_compute; reflexivity]. vm_compute. intuition discriminate.
  - exists 30. split; [vm_compute; reflexivity|reflexivity].
  - vm_compute. reflexivity.
  - vm_compute. left. reflexivity.
  - vm_compute. reflexivity.
  - vm_compute. reflexivity.
  - vm_compute. right. left. reflexivity.
  - vm_compute. right. left. reflexivity.
  - vm_compute. reflexivity.
  - vm_compute. left. reflexivity.
  - vm_compute. reflexivity.
  - vm_compute. reflexivity.
  - vm_compute. reflexivity.
  - vm_compute. reflexivity.
  - vm_compute. reflexivity.
  - lia.
  - reflexivity.
  - vm_compute. reflexivity.
Qed.
(** With a template that counts in ticks the periods of a multi-period manifest
    do not begin at their start: all media are presented too late. *)
Lemma C69_offset_refuted_pf : exists c e src t0 x progs period v,
  live_session c /\ 0 < c_seg_dur c /\ c_peroff c < 0 /\ x_kids src = (progs ++ [period])%list /\ x_tag period = "Period" /\
  Forall (fun y => x_tag y = "ProgramInformation") progs /\
  (forall A T, In A (children "AdaptationSet" period) -> In T (children "SegmentTemplate" A) -> get "presentationTimeOffset" T = None) /\
  get_mpd c e src t0 = Ok x /\ sees x v /\ vw_seconds v = c_seg_dur c /\ 0 < vw_period v /\
  (vw_offset v < inject_Z (vw_period v))%Q.
Proof.
  exists periods_cfg, (play_env play_periods), (in_ticks ex_source), 1000, ticks_mpd. eexists [_], _, ticks_view.
  split; [apply periods_playing|]. split; [reflexivity|]. split; [reflexivity|]. split; [vm_compute; reflexivity|].
  split; [reflexivity|]. split; [repeat constructor|]. split.
  { intros A T IA IT. cbn in IA. destruct IA as [<-|[<-|[]]]; cbn in IT; destruct IT as [<-|[]]; reflexivity. }
  split; [vm_compute; reflexivity|]. split; [exact ticks_sees|]. split; [reflexivity|]. split; reflexivity.
Qed.
Example C69_init_case :
  let r := ex_request "/livesim/start_300/snr_7/tsbd_30/testpic/V2/init.mp4" None in
  for_url r (init_url play_view) /\ admitted 0 r 300 /\
  fill (vw_id play_view) "" (vw_init play_view) = vw_id play_view ++ "/" ++ "init.mp4" /\ snd (splitext "init.mp4") = ".mp4" /\
  st_inits play_site "testpic" "V2" "init.mp4" = Ok (encs ex_init) /\ boxes_ok movie_containers header_ok ex_init /\
  c_init_off open_cfg = 0.
Proof.
  cbn zeta. split.
  { split; [vm_compute; reflexivity|]. split; [unfold no_slash; vm_compute; intuition discriminate|]. eexists. reflexivity. }
  split; [left; reflexivity|]. split; [vm_compute; reflexivity|]. split; [vm_compute; reflexivity|]. split; [reflexivity|].
  split; [exact ex_init_ok|reflexivity].
Qed.
