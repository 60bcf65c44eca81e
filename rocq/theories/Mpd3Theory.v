(** The tree of the live manifest with SegmentTimeline addressing (C62), and
    that everything a client reads off it is served (C27). *)
From Coq Require Import Lqa ZifyBool ZifyNat.
From Verif Require Import Base BaseProofs ConfigModel ProxyModel ProxySpec ProxyProofs ProxyTheory Proxy2Theory ConfigProofs ConfigTheory
  SessionProofs ClockProofs TimeModel StrModel TimelineModel TimelineSpec TimelineProofs TimelineTheory PeriodModel PeriodSpec PeriodTheory
  MpdModel MpdSpec MpdProofs MpdTheory Mpd2Spec Mpd2Proofs Mpd2Theory Mpd3Spec Mpd3Proofs.
Open Scope Z_scope.

(** ** C62: one Period per period of the schedule, everything else as in the
    source, for every addressing mode and every session: the schedule is that of
    some moment [t], the present one unless the server plays a loss schedule.
    Full statement: for every source with one Period and every configuration;
    left out are a negative time shift buffer and, when there are several
    periods, sources with other elements than ProgramInformation and one BaseURL
    before the Period (C62_front_refuted). *)
Lemma C62_tree_partial_pf : forall c e src now x pre period rest,
  x_kids src = (pre ++ period :: rest)%list -> x_tag period = "Period"%string ->
  Forall (fun y => x_tag y <> "Period"%string) pre -> Forall (fun y => x_tag y <> "Period"%string) rest ->
  (forall b, c_tsbd c = Some b -> 0 <= b + c_seg_dur c) ->
  get_mpd c e src now = Ok x ->
  exists t sn mup ps, t <= now /\ (c_stl_loss c = false \/ c_multi_url c = [] -> t = now) /\
    adjusted_start_number c = Ok sn /\ generate_period_data c sn (adjusted_pto c 0 1) t = Ok (mup, ps) /\
    get "availabilityStartTime" x = Some (make_timestamp (c_ast c)) /\
    get "publishTime" x = Some (make_timestamp t) /\
    (c_mpdur c = None -> get "mediaPresentationDuration" x = None) /\
    (forall b, c_tsbd c = Some b -> c_mpdur c = None -> ~ ended c t -> get "timeShiftBufferDepth" x = Some (seconds_to_iso_duration b)) /\
    (forall s, c_spd c = Some s -> get "suggestedPresentationDelay" x = Some (seconds_to_iso_duration s)) /\
    (List.length ps = 1%nat \/ expected_front pre ->
      Forall2 (fun p P => period_with c (template_any c (me_tables e) p) p period P) ps (children "Period" x) /\
      forall tag, ~ In tag managed_tags -> children tag x = children tag src).
Proof.
  intros c e src now x pre period rest K TP NP NR TS G.
  destruct (get_mpd_moment _ _ _ _ _ G) as (em & t & L & LN & G'). clear G.
  destruct (generate_inv _ _ _ _ _ _ G') as (d & sn & mup & ps & root & kids & D & SN & GP & R & _ & X).
  assert (NE := schedule_nonempty _ _ _ _ _ _ TS GP).
  exists t, sn, mup, ps. do 4 (split; [assumption|]).
  assert (A : forall k, get k x = get k root) by (intros k; rewrite X; apply get_set_kids).
  rewrite !A. clear A. destruct (process_mpd_times _ _ _ _ _ _ R) as (A1 & A2 & A3 & A4 & A5 & _).
  rewrite A1, A2, A3, A4, A5. pose proof (mpd_data_static _ _ _ D) as ST.
  assert (DD := D). unfold mpd_data_of in D. destruct (c_tsbd c) as [b|] eqn:T; [|discriminate]. injection D as DE.
  assert (E1 : md_ast d = make_timestamp (c_ast c) /\ md_mpdur d = option_map seconds_to_iso_duration_Q (c_mpdur c) /\
               md_tsbd d = seconds_to_iso_duration b /\ md_spd d = option_map seconds_to_iso_duration (c_spd c)) by (rewrite <- DE; repeat split; reflexivity).
  clear DE. destruct E1 as (-> & -> & -> & ->).
  split; [reflexivity|]. split; [reflexivity|]. split; [intros ->; reflexivity|]. split; [|split].
  - intros b0 E0 -> ND. injection E0 as <-. cbn [option_map]. rewrite orb_false_r.
    match goal with |- (if ?b then _ else _) = _ => destruct b eqn:Q end; [exfalso; apply ND, ST; reflexivity|reflexivity].
  - intros s ->. reflexivity.
  - intros ONE. destruct (tree_any _ _ _ _ _ _ _ _ _ _ _ _ _ K NP TP NR G' DD SN GP NE ONE) as (cb & F & O).
    split; [|exact O]. eapply Forall2_impl; [|exact F]. cbv beta. intros p P (id & g & g' & U & N).
    refine (period_generic (mk_penv c t em d cb) p (me_tables e) (template_any c (me_tables e) p) _ id g period g' P TP N U).
    intros ct g1 y g2 y' TF H. exact (template_any_ok (mk_penv c t em d cb) p ct g1 y g2 y' (me_tables e) TF H).
Qed.

Example ex_C62_tree : match ex_live ["segtimelineloss_1"; "baseurl_u20_d10"; "periods_60"]%string 1225 with
  | Ok x => map (fun P => (get "id" P, get "start" P)) (children "Period" x)
  | Err _ => []
  end = [(Some "p15", Some "PT900S"); (Some "p16", Some "PT960S"); (Some "p17", Some "PT1020S"); (Some "p18", Some "PT1080S");
         (Some "p19", Some "PT1140S"); (Some "p20", Some "PT1200S")]%string.
Proof. vm_compute. reflexivity. Qed.

(** A source BaseURL is replaced, and the periods follow. *)
Definition front_source (extra : list xml) : xml :=
  match x_kids ex_source with a :: r => Elem "MPD" (x_attrs ex_source) "" (a :: extra ++ r) | [] => ex_source end.
Definition front_live (extra : list xml) (opts : list string) (now : Z) : result xml :=
  get_mpd (ex_mpd opts now) (ex_env opts) (front_source extra) now.
Example ex_C62_front : match front_live [Elem "BaseURL" [] "media/" []] ["periods_60"; "tsbd_30"]%string 1210 with
  | Ok x => (map x_text (children "BaseURL" x), map (get "id") (children "Period" x))
  | Err _ => ([], [])
  end = (["http://h/livesim/periods_60/tsbd_30/testpic/"], [Some "p19"; Some "p20"])%string.
Proof. vm_compute. reflexivity. Qed.

(** With any other element before the Period it is that element that is copied
    (mpdprocessor.py line 200 reads the child at the old position), so a schedule
    of several periods leaves one Period in the manifest. *)
Lemma C62_front_refuted_pf : exists c e src now x mup ps,
  children "Period" src <> [] /\ (exists a, x_kids src = [Elem "Location" [] "http://h/m.mpd" []; a] /\ x_tag a = "Period")%string /\
  get_mpd c e src now = Ok x /\ generate_period_data c 0 0 now = Ok (mup, ps) /\
  List.length ps = 3%nat /\ List.length (children "Period" x) = 1%nat /\ List.length (children "Location" x) = 3%nat.
Proof.
  exists (ex_mpd ["periods_60"; "tsbd_120"]%string 1210), (ex_env ["periods_60"; "tsbd_120"]%string),
    (Elem "MPD" (x_attrs ex_source) "" (Elem "Location" [] "http://h/m.mpd" [] :: children "Period" ex_source))%string, 1210.
  do 3 eexists. split; [vm_compute; discriminate|]. split; [eexists; split; [vm_compute; reflexivity|reflexivity]|].
  split; [vm_compute; reflexivity|]. split; [vm_compute; reflexivity|]. repeat split; vm_compute; reflexivity.
Qed.

(** With SegmentTimeline addressing the templates list the segments of their
    content type that lie in the period and in the time shift buffer.  Full
    statement: for every session; left out are sessions with a stop time and
    time offset 0, and windows that meet a run of the table in two turns of the
    loop (C26_wrap_refuted). *)
Lemma C62_timeline_partial_pf : forall c e src now x progs period rest sn mup ps depth,
  x_kids src = (progs ++ period :: rest)%list ->
  Forall (fun y => x_tag y = "ProgramInformation"%string) progs -> x_tag period = "Period"%string ->
  Forall (fun y => x_tag y <> "Period"%string) rest ->
  c_stl_loss c = false \/ c_multi_url c = [] -> (c_segtl c = true \/ c_segtlnr c = true) ->
  c_tsbd c = Some depth -> c_stop_time c = None \/ c_timeoffset c <> Some 0 ->
  get_mpd c e src now = Ok x ->
  adjusted_start_number c = Ok sn -> generate_period_data c sn (adjusted_pto c 0 1) now = Ok (mup, ps) -> ps <> [] ->
  (forall p, In p ps -> 0 <= shown_from c depth now p /\ 0 <= shown_until c now p /\
     forall ct g, track_table c (me_tables e) ct g -> gen_ok g /\ clean_window g (shown_from c depth now p) (shown_until c now p)) ->
  Forall2 (fun p P => period_with c (template_lists c (me_tables e) depth now p) p period P) ps (children "Period" x).
Proof.
  intros c e src now x progs period rest sn mup ps depth K FP TP NR L SG TS ST G SN GP NE LI.
  apply get_mpd_plain in G; [|exact L].
  destruct (generate_inv _ _ _ _ _ _ G) as (d & _ & _ & _ & _ & _ & D & _).
  destruct (children_of _ _ _ _ _ _ _ _ _ _ _ _ _ K FP TP NR G D SN GP NE) as (urls & cb & _ & _ & F & O).
  assert (F' : Forall2 (fun p P => In p ps /\ exists id g g', update_period (mk_penv c now (c_emsg_last c) d cb) p id g period = Ok (g', P) /\
                        tracks_from c (me_tables e) g) ps (children "Period" x)).
  { clear - F. revert F. generalize (children "Period" x) as Ps. induction ps as [|p ps IH]; intros Ps F; inversion F; subst; constructor.
    - split; [left; reflexivity|assumption].
    - eapply Forall2_impl; [|apply IH; assumption]. cbv beta. intros q Q (I & R). split; [right; exact I|exact R]. }
  eapply Forall2_impl; [|exact F']. cbv beta. intros p P (I & id & g & g' & U & N).
  assert (SG' : (c_segtl c || c_segtlnr c)%bool = true) by (apply Bool.orb_true_iff; exact SG).
  destruct (LI p I) as (L1 & L2 & L3).
  refine (period_generic (mk_penv c now (c_emsg_last c) d cb) p (me_tables e) (template_lists c (me_tables e) depth now p) _ id g period g' P TP N U).
  intros ct g1 y g2 y' TF H. destruct g1 as [h|]; [|destruct TF as [(S & _)|(h & _ & S & _)]; [cbn [pe_cfg] in S; congruence|discriminate]].
  exact (template_timeline (mk_penv c now (c_emsg_last c) d cb) p ct h y g2 y' (me_tables e) depth TF TS ST L3 L1 L2 H).
Qed.

(** Content with tables: the video of the test content and audio with the same
    loop of 3600 s, in segments of 6 s at 48 kHz. *)
Definition tl_vod : vodcfg :=
  mkVod 1 600 6 300
        [("video", mkMedia 90000 ["V1"; "V2"] None (Some "video.dat"));
         ("audio", mkMedia 48000 ["A1"] None (Some "audio.dat"))]%string.
Definition tl_read (name : string) : result vodcfg := if String.eqb name "testpic" then Ok tl_vod else Err "NoSectionError".
Definition tl_tables (f : string) : result (list entry) :=
  if String.eqb f "video.dat" then Ok [mk_entry 1 599 0 540000]
  else if String.eqb f "audio.dat" then Ok [mk_entry 1 299 0 288000; mk_entry 301 299 86400000 288000] else Err "IOError".
Definition tl_env : menv := mk_menv "http://h/livesim/segtimeline_1/testpic/Manifest.mpd" "http://h/livesim/" "2026-01-01T00:00:00Z" tl_tables.
Definition tl_cfg (opts : list string) (now : Z) : config :=
  match process_url tl_read "http://h/livesim/" (List.app opts ["testpic"; "Manifest.mpd"]%string) now with Ok c => c | Err _ => config_init "" end.
Definition tl_audio : tgen := mk_tgen 48000 [mk_entry 1 299 0 288000; mk_entry 301 299 86400000 288000] (3600 * 48000) 600 1.
Definition tl_live (opts : list string) (now : Z) : result xml := get_mpd (tl_cfg opts now) tl_env ex_source now.
Lemma tl_audio_ok : gen_ok tl_audio.
Proof. repeat split; try discriminate; cbn; lia. Qed.
Lemma tl_tables_of : forall opts now ct g, c_media_data (tl_cfg opts now) = v_media tl_vod ->
  c_wrap_secs (tl_cfg opts now) = 3600 -> c_vod_n (tl_cfg opts now) = 600 -> c_vod_first (tl_cfg opts now) = 1 ->
  track_table (tl_cfg opts now) tl_tables ct g -> g = ex_video \/ g = tl_audio.
Proof.
  intros opts now ct g E1 E2 E3 E4 (m & f & t & F & D & T & ->). rewrite E1 in F. rewrite E2, E3, E4.
  unfold tl_vod in F. cbn [v_media List.find fst] in F.
  destruct (String.eqb_spec "video" ct) as [<-|_].
  - left. injection F as <-. cbn [m_dat] in D. injection D as <-. vm_compute in T. injection T as <-. reflexivity.
  - right. destruct (String.eqb_spec "audio" ct) as [<-|_]; [|discriminate]. injection F as <-. cbn [m_dat] in D. injection D as <-. vm_compute in T. injection T as <-. reflexivity.
Qed.
(** Two periods of a 30 s window at second 1210 with period length 60 s. *)
Example ex_C62_timeline :
  match tl_live ["segtimeline_1"; "tsbd_30"; "periods_60"]%string 1210 with
  | Ok x => map (fun P => (get "id" P, get "start" P, map (fun A => map (fun T => (get "media" T, client_timeline T))
              (children "SegmentTemplate" A)) (children "AdaptationSet" P))) (children "Period" x)
  | Err _ => []
  end =
  (let M := Some "$RepresentationID$/t$Time$.m4s" in
   [(Some "p19", Some "PT1140S", [[(M, Some [(56448000, 288000); (56736000, 288000); (57024000, 288000); (57312000, 288000)])];
                                  [(M, Some [(105840000, 540000); (106380000, 540000); (106920000, 540000); (107460000, 540000)])]]);
    (Some "p20", Some "PT1200S", [[(M, Some [(57312000, 288000); (57600000, 288000)])];
                                  [(M, Some [(107460000, 540000); (108000000, 540000)])]])])%string.
Proof. vm_compute. reflexivity. Qed.
Example ex_C62_timeline_case : let c := tl_cfg ["segtimeline_1"; "tsbd_30"; "periods_60"]%string 1210 in
  c_segtl c = true /\ c_tsbd c = Some 30 /\ c_stop_time c = None /\ c_multi_url c = [] /\ adjusted_start_number c = Ok 0 /\
  exists mup ps, generate_period_data c 0 (adjusted_pto c 0 1) 1210 = Ok (mup, ps) /\ ps <> [] /\
  forall p, In p ps -> 0 <= shown_from c 30 1210 p /\ 0 <= shown_until c 1210 p /\
    forall ct g, track_table c tl_tables ct g -> gen_ok g /\ clean_window g (shown_from c 30 1210 p) (shown_until c 1210 p).
Proof.
  cbv zeta. do 5 (split; [vm_compute; reflexivity|]). eexists. eexists. split; [vm_compute; reflexivity|]. split; [discriminate|].
  intros p IP.
  assert (E : (shown_from (tl_cfg ["segtimeline_1"; "tsbd_30"; "periods_60"]%string 1210) 30 1210 p, 
               shown_until (tl_cfg ["segtimeline_1"; "tsbd_30"; "periods_60"]%string 1210) 1210 p) = (1180, 1200) \/
    (shown_from (tl_cfg ["segtimeline_1"; "tsbd_30"; "periods_60"]%string 1210) 30 1210 p, 
     shown_until (tl_cfg ["segtimeline_1"; "tsbd_30"; "periods_60"]%string 1210) 1210 p) = (1200, 1210)).
  { destruct IP as [<-|[<-|[]]]; [left|right]; vm_compute; reflexivity. }
  assert (T : forall ct g, track_table (tl_cfg ["segtimeline_1"; "tsbd_30"; "periods_60"]%string 1210) tl_tables ct g -> g = ex_video \/ g = tl_audio).
  { intros ct g. apply tl_tables_of; vm_compute; reflexivity. }
  destruct E as [E|E]; injection E as -> ->; (split; [lia|]); (split; [lia|]); intros ct g TT;
    (destruct (T ct g TT) as [-> | ->]; split; [apply ex_tables|apply C26_one_turn_pf; [apply ex_tables|lia|reflexivity]|
      apply tl_audio_ok|apply C26_one_turn_pf; [apply tl_audio_ok|lia|reflexivity]]).
Qed.

(** ** C27, read off the manifest: every segment listed in a SegmentTemplate of
    the representation's AdaptationSet is served at the time of the manifest,
    by number and by time, and it is the
    stored segment that the table puts at the listed time.  Full statement:
    also in sessions with a start number or a time offset
    (C27_start_number_refuted, C27_timeoffset_refuted), with a stop time
    (C27_stopped_refuted) and
    across the end of the loop (C27_wrap_refuted). *)
Lemma served_listed : forall c g k, wf_cfg c -> gen_ok g -> on_grid g (c_seg_dur c) ->
  tg_per_wrap g = c_vod_n c -> c_start_nr c = 0 -> c_timeoffset c = None -> 0 <= k ->
  let sv := the_served c k (c_emsg_last c) in
  exists s, nth_error (table_segs (tg_table g)) (Z.to_nat (sv_vod sv - c_vod_first c)) = Some (s, snd (live_seg g k)) /\
    fst (live_seg g k) = sv_offset sv * tg_timescale g + s.
Proof.
  intros c g k W G (HW & _) N SN TO K. cbv zeta. unfold the_served. cbn [sv_vod sv_offset].
  pose proof (wf_dur c W) as D. pose proof (wf_n c W) as NP.
  assert (MS : media_start c k = k * c_seg_dur c).
  { unfold media_start, media_time_at_ast, first_nr. rewrite SN, TO. change (0 =? -1) with false. cbv iota. rewrite Z.sub_0_r. reflexivity. }
  rewrite MS. unfold loop_index, loop_start. rewrite Z.div_mul by lia.
  rewrite (Z.mul_comm (c_seg_dur c) (c_vod_n c)), Z.mul_mod_distr_r by lia.
  replace (c_vod_first c + k mod c_vod_n c - c_vod_first c) with (k mod c_vod_n c) by lia.
  pose proof (Z.mod_pos_bound k (c_vod_n c) NP) as B. pose proof (N_eq g G) as NE.
  unfold live_seg. cbv zeta. rewrite NE, N.
  destruct (nth_error (table_segs (tg_table g)) (Z.to_nat (k mod c_vod_n c))) as [(s, d)|] eqn:E.
  - rewrite (nth_error_nth _ _ (0, 0) E). cbn [fst snd]. exists s. split; [reflexivity|].
    rewrite HW, N. pose proof (Z.div_mod k (c_vod_n c) ltac:(lia)) as DM.
    rewrite DM at 2. ring_simplify. ring.
  - exfalso. apply nth_error_None in E. lia.
Qed.

Lemma refile_numbered : forall c rp t ts ct k, 0 <= t -> 0 < ts -> 0 < c_seg_dur c -> (forall u, c_multi_url c <> [u]) ->
  Z.abs (2 * t - 2 * k * c_seg_dur c * ts) < c_seg_dur c * ts ->
  media_request (refile rp ("t" ++ print_nat t ++ ".m4s") [mkRep rp ct ts] c) k.
Proof.
  intros c rp t ts ct k T TS D MU H. destruct (print_nat_spec t T) as (P1 & P2 & P3).
  assert (E : splitext ("t" ++ print_nat t ++ ".m4s") = ("t" ++ print_nat t, ".m4s")%string).
  { change ("t" ++ print_nat t ++ ".m4s")%string with (String "t" (print_nat t) ++ String "." "m4s")%string.
    rewrite splitext_ext; auto.
    - intros x [<-|Hx]; [discriminate|]. eapply all_digits_no_dot; eauto.
    - discriminate.
    - simpl. intros x [<-|[<-|[<-|[]]]]; discriminate. }
  constructor.
  - unfold refile. cbn [c_ext set_reps set_ext]. rewrite E. reflexivity.
  - apply (C29_time_addressing_pf _ t k ts); try assumption; [reflexivity|].
    unfold refile. cbn [c_rel_path c_reps set_reps set_ext set_filename set_rel_path get_timescale]. cbn [rep_id rep_timescale]. rewrite String.eqb_refl. reflexivity.
  - discriminate.
  - exact MU.
Qed.
Lemma C27_manifest_partial_pf : forall read base opts name mfile rp v ct m g c now a0 b e src progs period rest x,
  Forall (fun kv => str_in (fst kv) url_cfg_keys = true) opts -> plain_name name ->
  process_url read base (manifest_parts opts name mfile) now = Ok c ->
  read name = Ok v -> split_dunder rp = [rp] -> content_type_for_rep (v_media v) rp = Some (ct, m) ->
  (* the tables of the content *)
  track_table c (me_tables e) ct g -> tg_timescale g = m_timescale m -> on_grid g (c_seg_dur c) ->
  (forall ct' g', track_table c (me_tables e) ct' g' -> gen_ok g' /\ clean_window g' (Z.max 0 (now - b - c_ast c)) (now - c_ast c)) ->
  wf_cfg c -> (c_segtl c = true \/ c_segtlnr c = true) -> c_pph c = -1 -> c_insert_ad c <= 0 -> (forall u, c_multi_url c <> [u]) ->
  c_start_nr c = 0 -> c_timeoffset c = None -> c_ato c = Some a0 -> (0 <= a0)%Q -> c_tsbd c = Some b -> 0 <= b ->
  c_stop_time c = None -> c_last_nrs c = [] -> c_aet c = None -> c_ast c <= now -> c_stl_loss c = false ->
  x_kids src = (progs ++ period :: rest)%list ->
  Forall (fun y => x_tag y = "ProgramInformation"%string) progs -> x_tag period = "Period"%string ->
  Forall (fun y => x_tag y <> "Period"%string) rest ->
  get_mpd c e src now = Ok x ->
  exists P, children "Period" x = [P] /\ get "start" P = Some "PT0S"%string /\
  forall A T l, In A (children "AdaptationSet" P) -> get "contentType" A = Some ct -> In T (children "SegmentTemplate" A) ->
    client_timeline T = Some l ->
    let listed file t d := exists sv s, request read base (media_parts opts name rp file) (inject_Z now) = Ok (Serve sv) /\
      nth_error (table_segs (tg_table g)) (Z.to_nat (sv_vod sv - c_vod_first c)) = Some (s, d) /\
      t = sv_offset sv * tg_timescale g + s in
    forall i t d, nth_error l i = Some (t, d) ->
      listed ("t" ++ print_nat t ++ ".m4s")%string t d /\
      (c_segtl c = false -> exists s, int_attr "startNumber" T = Some s /\ listed (print_nat (s + Z.of_nat i) ++ ".m4s")%string t d).
Proof.
  intros read base opts name mfile rp v ct m g c now a0 b e src progs period rest x
    FO PN PU RD SD CT TT TSC GR TB WF SG PP IA MU SNR TO ATO A0 TS B0 STP LN AET AST SL K FP TP NR G.
  pose proof (wf_dur c WF) as Hd.
  destruct (single_period c now PP Hd ltac:(lia)) as (sn & p & SN & GP & _ & S0 & _ & _).
  assert (Ep : pd_start p = "PT0S"%string /\ pd_period_duration_s p = None).
  { clear - GP PP IA WF. unfold generate_period_data in GP. rewrite PP in GP. change (Z.min (-1) 60) with (-1) in GP.
    change (negb (count_allowed (-1))) with false in GP. cbv iota in GP.
    replace (0 <? c_insert_ad c) with false in GP by lia. cbn [bind] in GP. change (-1 =? -1) with true in GP. cbv iota in GP.
    apply bind_inv in GP. destruct GP as (q & _ & GP). injection GP as <-. auto. }
  destruct Ep as (E1 & E2).
  assert (SF : shown_from c b now p = Z.max 0 (now - b - c_ast c)) by (unfold shown_from; rewrite S0; reflexivity).
  assert (SU : shown_until c now p = now - c_ast c) by (unfold shown_until; rewrite E2; reflexivity).
  pose proof (C62_timeline_partial_pf c e src now x progs period rest sn None [p] b K FP TP NR ltac:(auto) SG TS ltac:(auto) G SN GP ltac:(discriminate)
    ltac:(intros q [<-|[]]; rewrite SF, SU; split; [lia|]; split; [lia|]; exact TB)) as F.
  inversion F as [|? P ? Ps PF F' EP EQ]; subst. inversion F'; subst. exists P. split; [reflexivity|].
  split; [rewrite (pw_start _ _ _ _ _ PF), E1; reflexivity|].
  intros A T l IA' CTA IT CL. cbv zeta. intros i t d NT.
  assert (PA : exists a, adaptation_with (template_lists c (me_tables e) b now p) a A).
  { clear - PF IA'. pose proof (pw_sets _ _ _ _ _ PF) as Q. revert IA'. induction Q; intros I; [contradiction|]. destruct I as [->|I]; eauto. }
  destruct PA as (aset & PA).
  assert (PT : exists tt ct' g' a' b', get "contentType" aset = Some ct' /\ track_table c (me_tables e) ct' g' /\ template_listing c b now p g' tt T a' b').
  { clear - PA IT. pose proof (aw_templates _ _ _ PA) as Q. revert IT. induction Q as [|y Y l L (ct' & g' & a' & b' & _ & C1 & C2 & C3) Q IH]; intros I; [contradiction|].
    destruct I as [->|I]; [|exact (IH I)]. exists y, ct', g', a', b'. auto. }
  destruct PT as (tt & ct' & g' & a & z & C1 & C2 & C3).
  assert (ct' = ct). { unfold get in CTA, C1. rewrite (aw_attrs _ _ _ PA) in CTA. congruence. } subst ct'.
  assert (g' = g). { destruct TT as (m1 & f1 & t1 & F1 & D1 & T1 & ->). destruct C2 as (m2 & f2 & t2 & F2 & D2 & T2 & ->).
    rewrite F1 in F2. injection F2 as <-. rewrite D1 in D2. injection D2 as <-. rewrite T1 in T2. injection T2 as <-. reflexivity. } subst g'.
  destruct (TB _ _ TT) as (GO & CW).
  assert (GN : tg_per_wrap g = c_vod_n c) by (destruct TT as (m1 & f1 & t1 & _ & _ & _ & ->); reflexivity).
  rewrite (tl_segments _ _ _ _ _ _ _ _ _ C3) in CL. injection CL as <-. rewrite nth_range in NT.
  destruct (Z.ltb_spec (Z.of_nat i) (z - a + 1)) as [Q|Q]; [|discriminate]. injection NT as NT.
  pose proof (tl_first _ _ _ _ _ _ _ _ _ C3) as FA. pose proof (tl_last _ _ _ _ _ _ _ _ _ C3) as LZ. rewrite SF in FA. rewrite SU in LZ.
  set (k := a + Z.of_nat i) in *.
  assert (HA0 : 0 <= a) by (destruct FA; lia). assert (H0k : 0 <= k) by lia. assert (Hk : a <= k <= z) by lia.
  pose proof GO as (_ & Hts & _).
  assert (Et : t = live_start g k) by (unfold live_start; rewrite NT; reflexivity).
  pose proof (grid_start g (c_seg_dur c) k GO GR) as DS.
  assert (Ht0 : 0 <= t). { rewrite Et. pose proof (live_start_mono g GO 0 k H0k) as M. rewrite (start_0 g GO) in M. exact M. }
  (* any request for number k is served, with the listed segment *)
  assert (SERVE : forall c', wf_cfg c' -> media_request c' k -> c_seg_dur c' = c_seg_dur c -> c_vod_n c' = c_vod_n c -> c_vod_first c' = c_vod_first c ->
     c_start_nr c' = 0 -> c_timeoffset c' = None -> c_ato c' = Some a0 -> c_tsbd c' = Some b -> c_stop_time c' = None -> c_last_nrs c' = [] ->
     c_aet c' = None -> c_ast c' = c_ast c ->
     exists sv s, get_media c' (inject_Z now) = Ok (Serve sv) /\
      nth_error (table_segs (tg_table g)) (Z.to_nat (sv_vod sv - c_vod_first c)) = Some (s, d) /\ t = sv_offset sv * tg_timescale g + s).
  { intros c' W' MR ED EN EF ES ET EA EB EST EL EE EAST.
    destruct (C01_media_window_exact_pf c' k (inject_Z now) a0 b W' MR EA EB EST EL EE) as [Hiff _].
    assert (exists sv, get_media c' (inject_Z now) = Ok (Serve sv)) as (sv & SV).
    { apply Hiff. unfold first_nr. rewrite ES, ET, ED, EAST. change (0 =? -1) with false. cbv iota.
      pose proof (grid_end g (c_seg_dur c) k GO GR) as DE.
      pose proof (live_end_mono g GO k z ltac:(lia)) as M1. pose proof (live_end_mono g GO a k ltac:(lia)) as M2.
      destruct LZ as (_ & Hb1 & _). pose proof (first_within g GO _ _ FA) as Hfw.
      clear - M1 M2 Hb1 Hfw DE H0k Hd Hts A0 B0 AST.
      set (TSC := tg_timescale g) in *. set (D0 := c_seg_dur c) in *. set (en := now - c_ast c) in *. set (st := Z.max 0 (now - b - c_ast c)) in *.
      replace (k - 0 + 1) with (k + 1) by lia. replace (k - 0 + 2) with (k + 2) by lia.
      assert (U : (k + 1) * D0 <= en).
      { assert ((k + 1) * D0 < en + 1); [|lia]. apply (Z.mul_lt_mono_pos_r TSC); [lia|]. rewrite Z.mul_add_distr_r. lia. }
      assert (L : st <= (k + 1) * D0).
      { assert (st < (k + 1) * D0 + 1); [|lia]. apply (Z.mul_lt_mono_pos_r TSC); [lia|]. rewrite (Z.mul_add_distr_r ((k + 1) * D0)). lia. }
      split; [assumption|]. split.
      + assert ((inject_Z (c_ast c + (k + 1) * D0) <= inject_Z now)%Q) by (rewrite <- Zle_Qle; lia). lra.
      + rewrite <- Zle_Qle. replace (k + 2) with (k + 1 + 1) by lia. rewrite (Z.mul_add_distr_r (k + 1)). lia. }
    destruct (proj1 (get_media_serve_iff _ k _ _ W' MR) SV) as (_ & ES').
    destruct (served_listed c' g k W' GO ltac:(rewrite ED; exact GR) ltac:(congruence) ES ET H0k) as (s & N1 & N2).
    rewrite <- ES', NT in N1, N2. cbn [fst snd] in N1, N2. rewrite EF in N1. exists sv, s. auto. }
  assert (REF : forall file, exists c', process_url read base (media_parts opts name rp file) now = Ok c' /\ 
      c' = refile rp file [mkRep rp ct (m_timescale m)] c).
  { intros file. eexists. split; [|reflexivity]. exact (session_same _ _ _ _ _ rp file _ _ _ _ _ FO PN PU RD SD CT). }
  assert (W' : forall file, wf_cfg (refile rp file [mkRep rp ct (m_timescale m)] c)) by (intros file; destruct WF; constructor; assumption).
  unfold request. rewrite !py_int_of_Q_inject. split.
  - destruct (REF ("t" ++ print_nat t ++ ".m4s")%string) as (c' & -> & ->). cbn [bind].
    apply SERVE; try assumption; try reflexivity; [apply W'|].
    apply refile_numbered; try assumption; [lia|]. rewrite <- TSC, Et.
    assert (tg_timescale g <= c_seg_dur c * tg_timescale g) by (rewrite <- (Z.mul_1_l (tg_timescale g)) at 1; apply Z.mul_le_mono_nonneg_r; lia).
    replace (2 * k * c_seg_dur c * tg_timescale g) with (2 * (k * c_seg_dur c * tg_timescale g)) by ring. clear - DS H Hts. lia.
  - intros SGF. exists a. split; [apply (tl_first_number _ _ _ _ _ _ _ _ _ C3 SGF); lia|]. fold k.
    destruct (REF (print_nat k ++ ".m4s")%string) as (c' & -> & ->). cbn [bind].
    apply SERVE; try assumption; try reflexivity; [apply W'|]. apply refile_request; assumption.
Qed.
(** Second 1210 with a buffer of 30 s: the segments 196 to 200 are listed. *)
Example ex_C27_manifest : let opts := [("segtimelinenr", "1"); ("tsbd", "30")]%string in let c := tl_cfg (map opt_text opts) 1210 in
  Forall (fun kv => str_in (fst kv) url_cfg_keys = true) opts /\
  process_url tl_read "http://h/livesim/" (manifest_parts opts "testpic" "Manifest.mpd") 1210 = Ok c /\
  content_type_for_rep (v_media tl_vod) "V1" = Some ("video", mkMedia 90000 ["V1"; "V2"] None (Some "video.dat"))%string /\
  track_table c tl_tables "video" ex_video /\ on_grid ex_video (c_seg_dur c) /\
  (forall ct' g', track_table c tl_tables ct' g' -> gen_ok g' /\ clean_window g' (Z.max 0 (1210 - 30 - c_ast c)) (1210 - c_ast c)) /\
  wf_cfg c /\ c_segtl c = false /\ c_segtlnr c = true /\ c_pph c = -1 /\ c_insert_ad c <= 0 /\ c_multi_url c = [] /\ c_start_nr c = 0 /\
  c_timeoffset c = None /\ c_ato c = Some 0%Q /\ c_tsbd c = Some 30 /\ c_stop_time c = None /\ c_last_nrs c = [] /\ c_aet c = None /\ c_ast c <= 1210 /\
  c_stl_loss c = false /\
  match get_mpd c tl_env ex_source 1210 with
  | Ok x => map (fun A => map (fun T => (client_timeline T, int_attr "startNumber" T)) (children "SegmentTemplate" A))
              (flat_map (children "AdaptationSet") (children "Period" x))
  | Err _ => []
  end = [[(Some [(56448000, 288000); (56736000, 288000); (57024000, 288000); (57312000, 288000); (57600000, 288000)], Some 196)];
         [(Some [(105840000, 540000); (106380000, 540000); (106920000, 540000); (107460000, 540000); (108000000, 540000)], Some 196)]].
Proof.
  cbv zeta. split; [repeat constructor|]. split; [vm_compute; reflexivity|]. split; [reflexivity|].
  split. { eexists. eexists. eexists. split; [vm_compute; reflexivity|]. split; [reflexivity|]. split; [vm_compute; reflexivity|]. vm_compute. reflexivity. }
  split; [exact ex_video_grid|].
  split. { intros ct' g' TT. apply (tl_tables_of (map opt_text [("segtimelinenr", "1"); ("tsbd", "30")]%string) 1210) in TT; [|vm_compute; reflexivity..].
    destruct TT as [-> | ->]; (split; [apply ex_tables || apply tl_audio_ok|apply C26_one_turn_pf; [apply ex_tables || apply tl_audio_ok|lia|vm_compute; reflexivity]]). }
  split. { constructor; try reflexivity; [exists 30; reflexivity|]. intros H. exfalso. apply H. reflexivity. }
  do 3 (split; [vm_compute; reflexivity|]). split; [vm_compute; discriminate|]. do 8 (split; [vm_compute; reflexivity|]).
  split; [vm_compute; discriminate|]. split; [vm_compute; reflexivity|]. vm_compute. reflexivity.
Qed.

(** Finding: after the stop time the (then static) manifest with start and stop
    time keeps moving its listing window; it lists segments beyond the stop
    time, which are refused, and no longer lists the first ones, which are
    served.  The code limits the window only when timeoffset_0 is given. *)
Lemma C27_stopped_refuted_pf : exists opts now x P A T l c,
  process_url tl_read "http://h/livesim/" (manifest_parts opts "testpic" "Manifest.mpd") now = Ok c /\
  get_mpd c tl_env ex_source now = Ok x /\ get "type" x = Some "static"%string /\
  children "Period" x = [P] /\ In A (children "AdaptationSet" P) /\ get "contentType" A = Some "video"%string /\
  children "SegmentTemplate" A = [T] /\ client_timeline T = Some l /\
  (exists t d, In (t, d) l /\
    request tl_read "http://h/livesim/" (media_parts opts "testpic" "V1" ("t" ++ print_nat t ++ ".m4s")) (inject_Z now) = Ok (Refuse RBeyondStop)) /\
  (exists t sv, ~ In t (map fst l) /\
    request tl_read "http://h/livesim/" (media_parts opts "testpic" "V1" ("t" ++ print_nat t ++ ".m4s")) (inject_Z now) = Ok (Serve sv)).
Proof.
  exists [("start", "1200"); ("stop", "1224"); ("segtimeline", "1")]%string, 1236.
  eexists. eexists. eexists. eexists. eexists. exists (tl_cfg ["start_1200"; "stop_1224"; "segtimeline_1"]%string 1236).
  split; [vm_compute; reflexivity|]. split; [vm_compute; reflexivity|]. split; [reflexivity|]. split; [reflexivity|].
  split; [right; left; reflexivity|]. split; [reflexivity|]. split; [reflexivity|]. split; [vm_compute; reflexivity|].
  split.
  - exists 2160000, 540000. split; [do 3 right; left; reflexivity|vm_compute; reflexivity].
  - exists 0. eexists. split; [|vm_compute; reflexivity]. cbn. intuition discriminate.
Qed.
