(** A player that follows a live manifest with a SegmentTimeline is served (C72). *)
From Coq Require Import Lqa.
From Verif Require Import Base BaseProofs BytesModel BytesProofs StrModel BoxSpec ConfigModel ConfigProofs ConfigTheory
  ProxyModel ProxySpec ProxyProofs ProxyTheory SessionProofs ClockProofs TimeModel TimeSpec TimeTheory PeriodModel PeriodSpec PeriodProofs PeriodTheory
  MpdModel MpdSpec MpdProofs MpdTheory TimelineModel TimelineSpec TimelineProofs TimelineTheory Mpd2Spec Mpd2Proofs Mpd2Theory Mpd3Spec Mpd3Proofs Mpd3Theory
  MediaSpec MediaTheory HttpModel HttpSpec HttpProofs HttpTheory EndSpec EndTheory InitSpec InitTheory ServeSpec ServeTheory
  PlayerSpec PlayerProofs Player2Proofs PlayerTheory StreamSpec.
Local Open Scope string_scope.
Open Scope Z_scope.

(** Sessions with a SegmentTimeline whose manifest is fetched in second [now]:
    one period or several, numbers from 0 on, open. *)
Record listed_session (c : config) (now : Z) : Prop := {
  lc_mode : c_segtl c = true \/ c_segtlnr c = true;
  lc_periods : c_pph c = -1 \/
    (exists n pd, multi c n pd) /\ c_ast c = 0 /\ c_peroff c < 0 /\ (c_etp c <= 0 \/ -1 <= c_etpdur c) /\
    exists b, c_tsbd c = Some b /\ b + c_seg_dur c <= now;
  lc_ad : c_insert_ad c <= 0;
  lc_urls : c_multi_url c = [];
  lc_loc : c_add_loc c = false;
  lc_ato : exists a, c_ato c = Some a /\ (0 <= a)%Q;
  lc_depth : exists b, c_tsbd c = Some b /\ 0 <= b;
  lc_start : c_start_nr c = 0;
  lc_stop : c_stop_time c = None;
  lc_mpdur : c_mpdur c = None;
  lc_last : c_last_nrs c = [];
  lc_aet : c_aet c = None;
  lc_toff : c_timeoffset c = None;
  lc_chunk : c_chunkdur c = None;
  lc_sidx : c_insert_sidx c = false;
  lc_ast : 0 <= c_ast c <= now
}.

Lemma fill_in : forall pd l p, In p (fill_durations pd l) -> exists q, In q l /\ (p = q \/ p = set_duration_s pd q).
Proof.
  intros pd. induction l as [|q [|r l] IH]; intros p I; cbn [fill_durations] in I; [destruct I|exists q; destruct I as [<-|[]]; cbn; auto|].
  destruct I as [<-|I].
  - exists q. split; [left; reflexivity|]. destruct (pd_period_duration_s q); auto.
  - destruct (IH p I) as (q' & J & K). exists q'. split; [right; exact J|exact K].
Qed.
Lemma loop_durations : forall c n pd ad nrs acc r, ad <= 0 ->
  period_loop c n pd ad nrs acc = Ok r ->
  Forall (fun p => pd_period_duration_s p = pd_etp p) acc -> Forall (fun p => pd_period_duration_s p = pd_etp p) r.
Proof.
  intros c n pd ad nrs. induction nrs as [|nr nrs IH]; intros acc r A H F; cbn [period_loop] in *.
  - injection H as <-. exact F.
  - apply bind_inv in H. destruct H as (q & Q & H). apply IH in H; [exact H|exact A|].
    constructor.
    + unfold one_period in Q. cbv zeta in Q. apply bind_inv in Q. destruct Q as (y1 & _ & Q). apply bind_inv in Q. destruct Q as (y2 & _ & Q).
      apply bind_inv in Q. destruct Q as (y3 & _ & Q). injection Q as <-. reflexivity.
    + destruct acc as [|p acc]; [constructor|]. replace (0 <? ad) with false by lia. cbn [andb]. exact F.
Qed.
(** The periods: start and offset of each, and what its duration says. *)
Record period_at (c : config) (ps : list pdata) (i : nat) (p : pdata) : Prop := {
  pa_start : 0 <= pd_start_s p;
  pa_text : pd_start p = "PT" ++ print_Z (pd_start_s p) ++ "S";
  pa_pto : pto_str (pd_pto p) = print_Z (pd_start_s p);
  pa_zero : pd_start_s p = 0 \/ c_peroff c < 0;
  pa_dur : forall d, pd_period_duration_s p = Some d -> 0 <= d;
  pa_next : forall q, nth_error ps (S i) = Some q ->
    exists d, pd_period_duration_s p = Some d /\ pd_start_s p + d <= pd_start_s q /\ (c_etp c <= 0 -> pd_start_s p + d = pd_start_s q);
  pa_last : nth_error ps (S i) = None -> c_etp c <= 0 -> pd_period_duration_s p = None
}.
Lemma listed_periods : forall c sn now mup ps b,
  listed_session c now -> 0 < c_seg_dur c -> c_tsbd c = Some b ->
  adjusted_start_number c = Ok sn -> generate_period_data c sn (adjusted_pto c 0 1) now = Ok (mup, ps) ->
  ps <> [] /\ forall i p, nth_error ps i = Some p -> period_at c ps i p.
Proof.
  intros c sn now mup ps b LS D TS SN GP. destruct (lc_periods c now LS) as [PP|((n & pd & M) & A0 & PO & ET & b' & TS' & BN)].
  - destruct (single_period c now PP D ltac:(pose proof (lc_ad c now LS); lia)) as (k & p & SN' & GP' & PS & S0 & _ & K2).
    rewrite SN in SN'. injection SN' as <-. rewrite GP in GP'. injection GP' as -> ->.
    split; [discriminate|]. intros [|[|i]] q Q; try discriminate Q. injection Q as <-.
    assert (E : pd_start p = "PT0S" /\ pd_pto p = PStr (print_Z (adjusted_pto c 0 1)) /\ pd_period_duration_s p = None).
    { clear - GP PP LS. unfold generate_period_data in GP. rewrite PP in GP. change (Z.min (-1) 60) with (-1) in GP.
      change (negb (count_allowed (-1))) with false in GP. cbv iota in GP.
      assert (A := lc_ad c now LS). replace (0 <? c_insert_ad c) with false in GP by lia. cbn [bind] in GP. change (-1 =? -1) with true in GP. cbv iota in GP.
      apply bind_inv in GP. destruct GP as (q & _ & GP). injection GP as <-. auto. }
    destruct E as (E1 & E2 & E3). constructor; rewrite ?S0, ?E1, ?E2, ?E3.
    + lia.
    + reflexivity.
    + unfold adjusted_pto; rewrite (lc_toff c now LS); reflexivity.
    + left; reflexivity.
    + discriminate.
    + discriminate.
    + reflexivity.
  - rewrite TS in TS'. injection TS' as <-.
    destruct (multi_min c n pd M) as (MM & _ & Hpd & Hn).
    destruct (generate_nth _ _ _ _ _ _ _ _ _ M TS D GP) as (LEN & NTH). cbv zeta in LEN, NTH.
    set (f := (now - b - c_seg_dur c) / pd) in *.
    assert (F0 : 0 <= f) by (apply Z.div_pos; lia).
    assert (FL : f <= (now + pd / 2) / pd).
    { apply Z.div_le_mono; [lia|]. assert (0 <= pd / 2) by (apply Z.div_pos; lia). destruct (lc_depth c now LS) as (b' & T' & B'). rewrite TS in T'. injection T' as <-. lia. }
    split.
    { intros ->. cbn [List.length] in LEN. lia. }
    intros i p E. pose proof (nth_error_In _ _ E) as IP. destruct (NTH i p E) as (_ & H2 & _ & H4 & H5 & H6 & _ & H8).
    assert (H0 : 0 <= (f + Z.of_nat i) * pd) by nia.
    assert (ETP : forall e, pd_etp p = Some e -> 0 <= e <= pd /\ 0 < c_etp c).
    { intros e Ee. rewrite Ee in H6. unfold etp_of in H6. destruct (Z.ltb_spec 0 (c_etp c)) as [G|G]; [|discriminate].
      apply bind_inv in H6. destruct H6 as (q & _ & H6). cbv zeta in H6.
      destruct (Z.ltb_spec pd (if c_etpdur c =? -1 then pd / 2 else c_etpdur c)) as [Y|Y]; [discriminate|].
      destruct (_ =? 0) in H6; [|discriminate]. injection H6 as <-. split; [|exact G]. split; [|exact Y].
      destruct (Z.eqb_spec (c_etpdur c) (-1)); [apply Z.div_pos; lia|]. destruct ET; lia. }
    constructor; rewrite ?H2, ?H4, ?H5.
    + assumption.
    + reflexivity.
    + reflexivity.
    + right; exact PO.
    + intros d Hd'. destruct (generate_multi _ _ _ _ _ _ _ _ _ M TS GP) as (ad & ys & r & _ & L & EL & _). fold f in L.
      rewrite EL in IP. destruct (fill_in _ _ _ IP) as (q & IQ & EQ). apply in_rev in IQ.
      pose proof (period_loop_durations _ _ _ _ _ _ _ L (Forall_nil _)) as Dn. rewrite Forall_forall in Dn. specialize (Dn q IQ).
      destruct EQ as [-> | ->].
      * destruct Dn as [Dn|Dn]; rewrite Dn in Hd'; [apply ETP; exact Hd'|]. injection Hd' as <-. lia.
      * cbn in Hd'. injection Hd' as <-. lia.
    + intros q Q. destruct (NTH (S i) q Q) as (_ & _ & _ & _ & J5 & _).
      assert (LL : (S i < List.length ps)%nat) by (apply nth_error_Some; congruence).
      assert (NX : pd_start_s q = (f + Z.of_nat i) * pd + pd) by (rewrite J5; lia).
      rewrite NX. destruct (H8 LL) as [X|(e & X1 & X2)].
      * exists pd. split; [exact X|]. split; lia.
      * exists e. split; [exact X2|]. destruct (ETP e X1) as (Y1 & Y2). split; lia.
    + intros Q NE. unfold generate_period_data in GP. rewrite MM, TS in GP.
      destruct (negb (count_allowed n)); [discriminate|].
      assert (A := lc_ad c now LS). replace (0 <? c_insert_ad c) with false in GP by lia. cbn [bind] in GP.
      destruct (Z.eqb_spec n (-1)); [lia|]. destruct (Z.eqb_spec n 0); [lia|].
      apply bind_inv in GP. destruct GP as (r & L & GP). injection GP as _ EL.
      pose proof (loop_durations _ _ _ (-1) _ _ _ ltac:(lia) L (Forall_nil _)) as Dn. rewrite Forall_forall in Dn.
      assert (PQ : In p (rev r)).
      { clear - E Q EL. rewrite <- EL in E, Q. revert i E Q. generalize (rev r) as l. induction l as [|q [|q' l] IH]; intros i E Q.
        - destruct i; discriminate E.
        - destruct i as [|[|i]]; cbn in E; try discriminate E. injection E as ->. left; reflexivity.
        - destruct i as [|i].
          + exfalso. cbn [fill_durations nth_error] in Q. destruct l; discriminate Q.
          + right. apply (IH i); assumption. }
      apply in_rev in PQ. rewrite (Dn p PQ). destruct (pd_etp p) as [e|] eqn:X; [|reflexivity]. destruct (ETP e eq_refl). lia.
Qed.

(** Windows inside the time shift buffer touch no run of any table twice; see
    C26 for windows that do. *)
Definition clean_tables (c : config) (tables : string -> result (list entry)) (lo hi : Z) : Prop :=
  forall ct g, track_table c tables ct g -> gen_ok g /\ forall st en, lo <= st <= en -> en <= hi -> clean_window g st en.

(** What a player sees in the manifest of such a session. *)
Lemma seen_list : forall c e src now x progs period rest b i P v,
  listed_session c now -> 0 < c_seg_dur c -> c_tsbd c = Some b -> 0 <= b ->
  clean_tables c (me_tables e) (Z.max 0 (now - b - c_ast c)) (now - c_ast c) ->
  x_kids src = (progs ++ period :: rest)%list ->
  Forall (fun y => x_tag y = "ProgramInformation") progs -> x_tag period = "Period" ->
  Forall (fun y => ~ In (x_tag y) ["Period"; "BaseURL"]) rest ->
  (forall A T, In A (children "AdaptationSet" period) -> In T (children "SegmentTemplate" A) ->
     get "presentationTimeOffset" T = None /\ get "media" T = Some "$RepresentationID$/$Number$.m4s") ->
  get_mpd c e src now = Ok x -> nth_error (children "Period" x) i = Some P -> lists_in x P v ->
  ls_base v = c_base_url c /\ ls_ast v = c_ast c /\ ls_depth v = Some b /\
  ls_media v = (if c_segtl c then "$RepresentationID$/t$Time$.m4s" else "$RepresentationID$/$Number$.m4s") /\
  exists g a z st en, track_table c (me_tables e) (ls_type v) g /\ gen_ok g /\
    ls_scale v = tg_timescale g /\ ls_offset v = ls_period v * tg_timescale g /\
    st = Z.max (ls_period v) (now - b - c_ast c) /\ 0 <= ls_period v /\ en <= now - c_ast c /\
    (forall P' z', nth_error (children "Period" x) (S i) = Some P' -> starts_at P' z' ->
       en <= z' /\ (c_etp c <= 0 -> en = Z.min z' (now - c_ast c))) /\
    (nth_error (children "Period" x) (S i) = None -> c_etp c <= 0 -> en = now - c_ast c) /\
    first_listed g (st * tg_timescale g) a /\ last_complete g (en * tg_timescale g) z /\
    ls_segments v = live_range g a z /\ (c_segtl c = false -> a <= z -> ls_number v = a).
Proof.
  intros c e src now x progs period rest b i P v LS D TS B0 CT K FP TP NR HT G V5 V.
  assert (NRP : none "Period"%string rest) by (eapply Forall_impl; [|exact NR]; cbv beta; cbn [In]; intros y Y E; apply Y; auto).
  assert (L : c_stl_loss c = false \/ c_multi_url c = []) by (right; apply LS).
  pose proof G as GM. apply get_mpd_plain in GM; [|exact L].
  destruct (generate_inv _ _ _ _ _ _ GM) as (d & sn & mup & ps & root & kids & DD & SN & GP & PM & _ & EX).
  destruct (listed_periods _ _ _ _ _ b LS D TS SN GP) as (NE & PD).
  assert (AST := lc_ast c now LS).
  assert (F := C62_timeline_partial_pf c e src now x progs period rest sn mup ps b K FP TP NRP L (lc_mode c now LS) TS ltac:(left; exact (lc_stop c now LS)) G SN GP NE).
  assert (F' : Forall2 (fun p P => period_with c (template_lists c (me_tables e) b now p) p period P) ps (children "Period" x)).
  { apply F. intros p IP. destruct (In_nth_error _ _ IP) as (i' & IP'). destruct (PD i' p IP') as [P0 _ _ _ P4 _ _].
    split; [unfold shown_from; lia|].
    assert (U0 : 0 <= shown_until c now p).
    { unfold shown_until. destruct (pd_period_duration_s p) as [q|]; [specialize (P4 q eq_refl)|]; lia. }
    split; [exact U0|]. intros ct g TT. destruct (CT ct g TT) as (GO & CW). split; [exact GO|].
    destruct (Z.le_gt_cases (shown_from c b now p) (shown_until c now p)) as [LE|GT].
    - apply CW; [unfold shown_from in *; lia|]. unfold shown_until. destruct (pd_period_duration_s p); lia.
    - intros a z Ha Hz Haz. exfalso. pose proof (first_within g GO _ _ Ha) as W. destruct Hz as (_ & Hz & _).
      pose proof (live_end_mono g GO a z Haz) as ME. pose proof GO as (_ & Hts & _).
      assert (shown_until c now p * tg_timescale g < shown_from c b now p * tg_timescale g) by (apply Z.mul_lt_mono_pos_r; lia). lia. }
  clear F.
  destruct (children_of _ _ _ _ _ _ _ _ _ _ _ _ _ K FP TP NRP GM DD SN GP NE) as (urls & cb & U & BU & _ & _).
  unfold url_elems in U. rewrite (lc_loc c now LS), (lc_urls c now LS) in U. cbn [bind map] in U. injection U as <-.
  specialize (BU "BaseURL"%string ltac:(auto)).
  rewrite (filter_none' "BaseURL" rest) in BU by (eapply Forall_impl; [|exact NR]; cbv beta; cbn [In]; intros y Y E; apply Y; auto).
  cbn [filter] in BU. change (has_tag "BaseURL" (baseurl_elem d (c_base_url c))) with true in BU. cbn iota in BU. cbn [app] in BU.
  destruct (process_mpd_times _ _ _ _ _ _ PM) as (AS & _ & LEN & DEP & _ & _).
  pose proof (mpd_data_static _ _ _ DD) as STA.
  assert (DF : md_ast d = make_timestamp (c_ast c) /\ md_mpdur d = option_map seconds_to_iso_duration_Q (c_mpdur c) /\
    md_tsbd d = seconds_to_iso_duration b).
  { clear - DD TS LS. unfold mpd_data_of in DD. rewrite TS, (lc_chunk c now LS) in DD. injection DD as <-. cbn. auto. }
  destruct DF as (DF1 & DF2 & DF3).
  destruct V as [B A T R ast_s ast depth ps_s pz ct id media num scale pto l
    V1 V2 V3 V4 V6 V7 V8 V9 V10 V11 V12 V13 V14 V15 V16 V17].
  cbn [ls_base ls_ast ls_depth ls_period ls_type ls_id ls_media ls_number ls_scale ls_offset ls_segments] in *.
  rewrite BU in V1. injection V1 as <-. split; [reflexivity|].
  assert (EGx : forall k, get k x = get k root) by (intros k; rewrite EX; apply get_set_kids).
  rewrite EGx, AS, DF1 in V2. injection V2 as <-.
  split.
  { destruct V3 as (y & m & dd & hh & mi & s & R1 & _ & R2). destruct (C32_calendar_pf (c_ast c) (proj1 AST)) as (y' & m' & d' & hh' & mi' & s' & Q1 & _ & Q2).
    rewrite Q1 in R1. injection R1 as <- <- <- <- <- <-. congruence. }
  split.
  { unfold opt_duration in V4. rewrite EGx, DEP, DF2, (lc_mpdur c now LS) in V4. cbn [option_map] in V4.
    assert (SF : md_static d = false).
    { destruct (md_static d); [|reflexivity]. destruct (proj1 STA eq_refl) as (st & Q & _). rewrite (lc_stop c now LS) in Q. discriminate. }
    rewrite SF in V4. cbn [orb] in V4. rewrite DF3 in V4. destruct V4 as (z & Q & ->). rewrite C31_denotes_pf in Q by exact B0. injection Q as <-. reflexivity. }
  assert (exists p, nth_error ps i = Some p /\ period_with c (template_lists c (me_tables e) b now p) p period P) as (p & IP & PF).
  { clear - F' V5. revert i V5. induction F'; intros [|i] V5; cbn [nth_error] in *; try discriminate; [injection V5 as <-; eauto|eauto]. }
  assert (NX : forall P', nth_error (children "Period" x) (S i) = Some P' -> exists q, nth_error ps (S i) = Some q /\ get "start" P' = Some (pd_start q)).
  { intros P' N. clear - F' N. revert i N. induction F' as [|y Y l l' HH F' IH]; intros i N; [destruct i; discriminate|]. cbn [nth_error] in N |- *.
    destruct i as [|i]; [|apply IH; exact N]. destruct F' as [|y2 Y2 l l' H2 F']; [discriminate|]. injection N as <-. exists y2. split; [reflexivity|apply (pw_start _ _ _ _ _ H2)]. }
  assert (NL : nth_error (children "Period" x) (S i) = None -> nth_error ps (S i) = None).
  { rewrite !nth_error_None. rewrite (forall2_len _ _ _ F'). auto. }
  destruct (PD i p IP) as [P0 P1 P2 P3 _ P5 P6].
  assert (EZ : pz = pd_start_s p).
  { rewrite (pw_start _ _ _ _ _ PF), P1 in V6. assert (E : ps_s = "PT" ++ print_Z (pd_start_s p) ++ "S") by congruence. rewrite E in V7.
    rewrite read_PT in V7 by exact P0. injection V7 as <-. reflexivity. }
  subst pz.
  assert (exists aset, In aset (children "AdaptationSet" period) /\ adaptation_with (template_lists c (me_tables e) b now p) aset A) as (aset & IA & PA).
  { clear - PF V8. pose proof (pw_sets _ _ _ _ _ PF) as Q. revert V8. induction Q as [|y Y l l' H0 Q IH]; intros I; [contradiction|].
    destruct I as [->|I]; [exists y; split; [left; reflexivity|exact H0]|]. destruct (IH I) as (w & W1 & W2). exists w. split; [right|]; assumption. }
  assert (exists t, In t (children "SegmentTemplate" aset) /\ template_lists c (me_tables e) b now p (get "contentType" aset) t T) as (t & IT & PT).
  { clear - PA V12. pose proof (aw_templates _ _ _ PA) as Q. revert V12. induction Q as [|y Y l l' H0 Q IH]; intros I; [contradiction|].
    destruct I as [->|I]; [exists y; split; [left; reflexivity|exact H0]|]. destruct (IH I) as (w & W1 & W2). exists w. split; [right|]; assumption. }
  destruct PT as (ct' & g & a & z & _ & C1 & C2 & C3).
  assert (ct' = ct). { unfold get in V9, C1. rewrite (aw_attrs _ _ _ PA) in V9. congruence. } subst ct'.
  destruct (HT aset t IA IT) as (HT1 & HT2). destruct (CT ct g C2) as (GO & _).
  pose proof (tl_timed _ _ _ _ _ _ _ _ _ C3) as TM.
  destruct (tm_media _ _ _ _ _ TM) as (m0 & M1 & M2). rewrite HT2 in M1. injection M1 as <-.
  rewrite V13 in M2. split; [destruct (c_segtl c); injection M2 as ->; reflexivity|].
  exists g, a, z, (shown_from c b now p), (shown_until c now p).
  assert (ES : scale = tg_timescale g).
  { pose proof (tm_timescale _ _ _ _ _ TM) as E. unfold int_or in V15. unfold int_attr in E.
    destruct (get "timescale" T) as [s|]; [|discriminate]. rewrite V15 in E. congruence. }
  split; [exact C2|]. split; [exact GO|]. split; [exact ES|].
  split.
  { unfold int_or in V16. destruct (Z.lt_ge_cases (c_peroff c) 0) as [N|N].
    - destruct (tm_pto _ _ _ _ _ TM (pd_start_s p) N P2) as [E|(E1 & E2)].
      + rewrite E, py_int_print in V16. congruence.
      + rewrite E2, HT1 in V16. rewrite E1. lia.
    - rewrite (tm_no_pto _ _ _ _ _ TM) in V16 by lia. rewrite HT1 in V16. destruct P3 as [P3|P3]; [rewrite P3; lia|lia]. }
  split; [reflexivity|]. split; [exact P0|].
  split; [unfold shown_until; destruct (pd_period_duration_s p); lia|].
  split.
  { intros P' z' N (s' & W1 & W2). destruct (NX P' N) as (q & Q1 & Q2). destruct (P5 q Q1) as (dd & R1 & R2 & R3).
    destruct (PD (S i) q Q1) as [q0 q1 _ _ _ _ _]. assert (z' = pd_start_s q).
    { rewrite Q2, q1 in W1. assert (E : s' = "PT" ++ print_Z (pd_start_s q) ++ "S") by congruence. rewrite E, read_PT in W2 by exact q0. congruence. }
    subst z'. unfold shown_until. rewrite R1. split; [lia|]. intros NE2. rewrite (R3 NE2). reflexivity. }
  split. { intros N NE2. unfold shown_until. rewrite (P6 (NL N) NE2). reflexivity. }
  split; [exact (tl_first _ _ _ _ _ _ _ _ _ C3)|]. split; [exact (tl_last _ _ _ _ _ _ _ _ _ C3)|].
  split; [pose proof (tl_segments _ _ _ _ _ _ _ _ _ C3); congruence|].
  intros SG AZ. pose proof (tl_first_number _ _ _ _ _ _ _ _ _ C3 SG AZ) as E. unfold int_or in V14. unfold int_attr in E.
  destruct (get "startNumber" T) as [s|]; [|discriminate]. rewrite V14 in E. congruence.
Qed.

(** The player has the manifest [x] of the session, fetched with request [r0] at
    time [t0], and looks at one video or audio representation in it. *)
Record following (s : site) (r0 : http_request) (opts : list (string * string)) (name : string) (t0 : Q)
    (c : config) (vc : vodcfg) (x : xml) (v : listing) (m : media) (g : tgen) (first mfile : string) : Prop := {
  fo_opts : Forall (fun kv => str_in (fst kv) url_cfg_keys = true) opts;
  fo_texts : Forall no_slash (map opt_text opts);
  fo_name : plain_name name /\ no_slash name;
  fo_first : no_slash first;
  fo_file : no_slash mfile;
  fo_host : no_slash (hr_host r0);
  fo_clock : Forall clock_free (manifest_parts opts name mfile);
  fo_path : hr_path r0 = "/" ++ join "/" (first :: manifest_parts opts name mfile);
  fo_site : site_ok s;
  fo_vod : st_vod s name = Ok vc;
  fo_config : provider_config s r0 t0 = Ok c;
  fo_session : listed_session c (py_int_of_Q t0);
  fo_manifest : exists e src progs period rest b, get_mpd c e src (py_int_of_Q t0) = Ok x /\
    x_kids src = (progs ++ period :: rest)%list /\
    Forall (fun y => x_tag y = "ProgramInformation") progs /\ x_tag period = "Period" /\
    Forall (fun y => ~ In (x_tag y) ["Period"; "BaseURL"]) rest /\
    (forall A T, In A (children "AdaptationSet" period) -> In T (children "SegmentTemplate" A) ->
       get "presentationTimeOffset" T = None /\ get "media" T = Some "$RepresentationID$/$Number$.m4s") /\
    track_table c (me_tables e) (ls_type v) g /\ c_tsbd c = Some b /\
    clean_tables c (me_tables e) (Z.max 0 (py_int_of_Q t0 - b - c_ast c)) (py_int_of_Q t0 - c_ast c);
  fo_lists : lists x v;
  fo_rep : content_type_for_rep (v_media vc) (ls_id v) = Some (ls_type v, m) /\ ls_type v <> "subtitles";
  fo_scale : tg_timescale g = m_timescale m;
  fo_grid : on_grid g (c_seg_dur c);
  fo_id : split_dunder (ls_id v) = [ls_id v] /\ no_slash (ls_id v);
  fo_range : py_int_of_Q t0 < 4294967296;
  fo_splice : c_scte35 c = 0 \/ ls_type v <> "video" \/ c_seg_dur c <= 30000
}.

Lemma C72_listed_partial_pf : forall limit s sid history r0 opts first name mfile t0 c vc x v m g,
  following s r0 opts name t0 c vc x v m g first mfile ->
  forall i t d r at_, nth_error (ls_segments v) i = Some (t, d) ->
  for_url r (listed_url v (Z.of_nat i) t) -> hr_range r = None -> admitted limit r at_ -> (0 <= t0)%Q ->
  (t0 <= at_)%Q -> still_there v t d at_ ->
  (* the stored segment that the table puts there *)
  exists j s0 loops, nth_error (table_segs (tg_table g)) j = Some (s0, d) /\
    t = s0 + loops * (v_n vc * v_dur vc) * m_timescale m /\
    forall l, st_files s name (ls_id v) (v_first vc + Z.of_nat j) ".m4s" = Ok (encs l) -> sendable (t - s0) l ->
    exists reply out, fst (application limit s r at_ sid (run limit s history [])) = Ok reply /\
      rp_status reply = 200 /\ rp_body reply = [encs out] /\
      (exists k, (c_segtl c = false -> k = ls_number v + Z.of_nat i) /\
        sent c (mkRep (ls_id v) (ls_type v) (m_timescale m)) k (py_int_of_Q at_) false l out) /\
      forall ts, decodes l (map (fun u => s0 + u) ts) -> decodes out (map (fun u => t + u) ts).
Proof.
  intros limit s sid history r0 opts first name mfile t0 c vc x v m g FO i t d r at_ NT FU HR AD T0 TA STL.
  destruct FO as [FO SO (PN & SN) SF SM SH CF HP SK VC PC S (e & src & progs & period & rest & b & G & K & FP & TP & NR & HT & TT & TS & CTB) V (CT & NS) TSC GR (SD & NI) RG SP].
  set (now := py_int_of_Q t0) in *.
  destruct (provider_wf _ _ _ _ SK PC) as (W & _). assert (Wd := wf_dur c W). assert (Wn := wf_n c W).
  assert (B0 : 0 <= b). { destruct (lc_depth c now S) as (b' & TS' & B0). congruence. }
  destruct (lc_ato c now S) as (a0 & AT & A0). assert (AST := lc_ast c now S).
  destruct V as (P & IP & V). destruct (In_nth_error _ _ IP) as (ip & IP').
  destruct (seen_list _ _ _ _ _ _ _ _ b ip P v S Wd TS B0 CTB K FP TP NR HT G IP' V)
    as (E1 & E2 & E3 & E4 & g' & a & z & st & en & TT' & GO & E5 & E6 & ST1 & ST0 & EN1 & _ & _ & FA & LZ & LR & NUM).
  assert (g' = g). { destruct TT as (m1 & f1 & t1 & F1 & D1 & T1 & ->). destruct TT' as (m2 & f2 & t2 & F2 & D2 & T2 & ->).
    rewrite F1 in F2. injection F2 as <-. rewrite D1 in D2. injection D2 as <-. rewrite T1 in T2. injection T2 as <-. reflexivity. } subst g'.
  assert (GN : tg_per_wrap g = c_vod_n c) by (destruct TT as (m1 & f1 & t1 & _ & _ & _ & ->); reflexivity).
  rewrite LR, nth_range in NT.
  destruct (Z.ltb_spec (Z.of_nat i) (z - a + 1)) as [Q|Q]; [|discriminate]. injection NT as NT.
  set (k := a + Z.of_nat i) in *.
  assert (HA0 : 0 <= a) by (destruct FA; lia). assert (H0k : 0 <= k) by lia. assert (Hk : a <= k <= z) by lia.
  pose proof GO as (_ & Hts & _).
  assert (Et : t = live_start g k) by (unfold live_start; rewrite NT; reflexivity).
  assert (Ee : t + d = live_end g k) by (unfold live_end; rewrite NT; reflexivity).
  pose proof (grid_start g (c_seg_dur c) k GO GR) as DS. pose proof (grid_end g (c_seg_dur c) k GO GR) as DE.
  assert (Ht0 : 0 <= t). { rewrite Et. pose proof (live_start_mono g GO 0 k H0k) as M. rewrite (start_0 g GO) in M. exact M. }
  assert (UP : (k + 1) * c_seg_dur c <= now - c_ast c).
  { pose proof (live_end_mono g GO k z ltac:(lia)) as M1. destruct LZ as (_ & Hb1 & _).
    assert ((k + 1) * c_seg_dur c < en + 1); [|lia]. apply (Z.mul_lt_mono_pos_r (tg_timescale g)); [lia|]. rewrite Z.mul_add_distr_r. lia. }
  assert (Kb : 0 <= k < 4294967296) by nia.
  (* the request *)
  set (file := if c_segtl c then "t" ++ print_nat t ++ ".m4s" else print_nat k ++ ".m4s") in *.
  assert (PZ : forall y, 0 <= y -> print_Z y = print_nat y) by (intros y Y; unfold print_Z; destruct (Z.ltb_spec y 0); [lia|reflexivity]).
  assert (URL : listed_url v (Z.of_nat i) t = c_base_url c ++ ls_id v ++ "/" ++ file).
  { unfold listed_url. rewrite E1, E4. f_equal. unfold file. destruct (c_segtl c) eqn:SG.
    - change (timed_fill (ls_id v) (print_Z (ls_number v + Z.of_nat i)) (print_Z t) "$RepresentationID$/t$Time$.m4s")
        with ("" ++ ls_id v ++ "/t" ++ print_Z t ++ ".m4s" ++ ""). rewrite PZ by exact Ht0. reflexivity.
    - rewrite (NUM eq_refl ltac:(lia)). fold k.
      change (timed_fill (ls_id v) (print_Z k) (print_Z t) "$RepresentationID$/$Number$.m4s")
        with ("" ++ ls_id v ++ "/" ++ print_Z k ++ ".m4s" ++ ""). rewrite PZ by exact H0k. reflexivity. }
  rewrite URL in FU.
  assert (NF : no_slash file).
  { assert (NM : forall y, 0 <= y -> no_slash (print_nat y ++ ".m4s")).
    { intros y Y. apply no_slash_app; [|unfold no_slash; cbn; intuition discriminate].
      rewrite <- PZ by exact Y. exact (number_no_slash "" y ltac:(unfold no_slash; cbn; tauto)). }
    unfold file. destruct (c_segtl c); [|apply NM; exact H0k].
    apply (no_slash_app "t"); [unfold no_slash; cbn; intuition discriminate|apply NM; exact Ht0]. }
  destruct (player_config s r0 r opts first name mfile t0 at_ c vc (ls_id v) file (ls_type v) m FO PN SO SN SF SM SH CF HP PC VC SD CT NI NF FU) as (p & PC2 & PP).
  set (rep := mkRep (ls_id v) (ls_type v) (m_timescale m)) in *.
  set (c2 := refile (ls_id v) file [rep] (set_publish_time p c)) in *.
  assert (MU : forall u, c_multi_url (set_publish_time p c) <> [u]).
  { intros u. change (c_multi_url (set_publish_time p c)) with (c_multi_url c). rewrite (lc_urls c now S). discriminate. }
  assert (MR : media_request c2 k).
  { unfold c2, file. destruct (c_segtl c).
    - apply refile_numbered; try assumption; [lia|]. rewrite <- TSC, Et. change (c_seg_dur (set_publish_time p c)) with (c_seg_dur c).
      assert (tg_timescale g <= c_seg_dur c * tg_timescale g) by (rewrite <- (Z.mul_1_l (tg_timescale g)) at 1; apply Z.mul_le_mono_nonneg_r; lia).
      replace (2 * k * c_seg_dur c * tg_timescale g) with (2 * (k * c_seg_dur c * tg_timescale g)) by ring. clear - DS H Hts. lia.
    - apply refile_request; assumption. }
  assert (VF : c_seg_dur c = v_dur vc /\ c_vod_n c = v_n vc /\ c_vod_first c = v_first vc /\ c_content_name c = name).
  { pose proof PC as PC'. unfold provider_config, path_parts in PC'. rewrite HP, split_slash, split_join in PC'; [|discriminate|].
    2:{ constructor; [exact SF|]. unfold manifest_parts. apply Forall_app. split; [exact SO|]. repeat constructor; assumption. }
    destruct (SK _ _ VC) as (D & N). destruct (manifest_vod _ _ _ _ _ _ _ _ FO PN PC' VC D N) as (g1 & g2 & g3 & g4 & _). auto. }
  destruct VF as (f1 & f2 & f3 & f4).
  assert (WC : wf_cfg c2) by (destruct (provider_wf _ _ _ _ SK PC2) as (WC & _); exact WC).
  destruct (served_listed c2 g k WC GO GR GN (lc_start c now S) (lc_toff c now S) H0k) as (s0 & N1 & N2).
  rewrite NT in N1, N2. cbn [fst snd] in N1, N2. unfold the_served in N1, N2. cbn [sv_vod sv_offset] in N1, N2.
  change (c_vod_first c2) with (c_vod_first c) in N1.
  assert (MS : media_start c2 k = k * c_seg_dur c).
  { unfold media_start, media_time_at_ast, first_nr. change (c_start_nr c2) with (c_start_nr c). change (c_timeoffset c2) with (c_timeoffset c).
    rewrite (lc_start c now S), (lc_toff c now S). change (0 =? -1) with false. cbv iota. rewrite Z.sub_0_r. reflexivity. }
  assert (DN : 0 < c_seg_dur c * c_vod_n c) by nia.
  assert (SF2 : source_file c2 k = v_first vc + k mod v_n vc).
  { unfold source_file. rewrite MS. change (c_seg_dur c2) with (c_seg_dur c). change (c_vod_n c2) with (c_vod_n c). change (c_vod_first c2) with (c_vod_first c).
    rewrite f2, f3, Z.div_mul by lia. reflexivity. }
  assert (SHI : shift c2 k = k / v_n vc * (v_n vc * v_dur vc)).
  { unfold shift. rewrite MS. change (c_seg_dur c2) with (c_seg_dur c). change (c_vod_n c2) with (c_vod_n c).
    rewrite (Z.mul_comm (c_seg_dur c) (c_vod_n c)). rewrite Z.div_mul_cancel_r by lia. rewrite f1, f2. reflexivity. }
  assert (LS : loop_start c2 (media_start c2 k) = shift c2 k).
  { unfold loop_start, shift. cbv zeta. change (c_seg_dur c2) with (c_seg_dur c). change (c_vod_n c2) with (c_vod_n c).
    pose proof (Z.div_mod (media_start c2 k) (c_seg_dur c * c_vod_n c) ltac:(lia)) as DM. lia. }
  assert (LI : loop_index c2 (media_start c2 k) = k mod v_n vc).
  { unfold loop_index. rewrite MS. change (c_seg_dur c2) with (c_seg_dur c). change (c_vod_n c2) with (c_vod_n c). rewrite f2, Z.div_mul by lia. reflexivity. }
  rewrite LS, SHI in N2. rewrite LI in N1.
  replace (c_vod_first c + k mod v_n vc - c_vod_first c) with (k mod v_n vc) in N1 by lia.
  assert (B1 : 0 <= k mod v_n vc) by (rewrite <- f2; apply Z.mod_pos_bound; lia).
  exists (Z.to_nat (k mod v_n vc)), s0, (k / v_n vc). split; [exact N1|].
  split; [rewrite N2, TSC; ring|]. rewrite Z2Nat.id by exact B1.
  intros l F SE.
  assert (NC : not_chunked c2) by (intros q Q'; change (c_chunkdur c2) with (c_chunkdur c) in Q'; rewrite (lc_chunk c now S) in Q'; discriminate).
  assert (F2 : st_files s (c_content_name c2) (c_rel_path c2) (source_file c2 k) ".m4s" = Ok (encs l)).
  { rewrite SF2. change (c_content_name c2) with (c_content_name c). rewrite f4. exact F. }
  assert (SE2 : sendable (shift c2 k * m_timescale m) l).
  { replace (shift c2 k * m_timescale m) with (t - s0); [exact SE|]. rewrite SHI, <- TSC, N2. ring. }
  assert (AN : announceable c2 rep k).
  { destruct SP as [SP|[SP|SP]]; [left; exact SP|right; left; exact SP|right; right]. split; [exact SP|].
    change (c_seg_dur c2) with (c_seg_dur c). lia. }
  assert (T1 : (0 <= at_)%Q) by lra.
  assert (N0 : (inject_Z now <= at_)%Q).
  { assert ((inject_Z now <= t0)%Q); [|lra]. unfold now. rewrite (py_int_of_Q_nonneg _ T0). apply Qfloor_le. }
  assert (AV : ProxySpec.session_started c2 at_ /\ session_not_over c2 at_ /\ available c2 k at_).
  { assert (SEE : seg_end c2 k = c_ast c + (k + 1) * c_seg_dur c).
    { unfold seg_end. unfold first_nr. change (c_start_nr c2) with (c_start_nr c). change (c_timeoffset c2) with (c_timeoffset c).
      change (c_ast c2) with (c_ast c). change (c_seg_dur c2) with (c_seg_dur c).
      rewrite (lc_start c now S), (lc_toff c now S). change (0 =? -1) with false. cbv iota. rewrite Z.sub_0_r. reflexivity. }
    assert (Q1 : (inject_Z (seg_end c2 k) <= at_)%Q).
    { assert ((inject_Z (seg_end c2 k) <= inject_Z now)%Q); [|lra]. rewrite <- Zle_Qle, SEE. lia. }
    split.
    { unfold ProxySpec.session_started. change (c_ato c2) with (c_ato c). rewrite AT. change (c_ast c2 + c_seg_dur c2) with (c_ast c + c_seg_dur c).
      assert ((inject_Z (c_ast c + c_seg_dur c) <= inject_Z (seg_end c2 k))%Q) by (rewrite <- Zle_Qle, SEE; nia). lra. }
    split; [intros e' E'; change (c_aet c2) with (c_aet c) in E'; rewrite (lc_aet c now S) in E'; discriminate|].
    unfold available, within_end, in_time. change (c_ato c2) with (c_ato c). change (c_last_nrs c2) with (c_last_nrs c). change (c_tsbd c2) with (c_tsbd c).
    rewrite AT, (lc_last c now S).
    split. { unfold first_nr. change (c_start_nr c2) with (c_start_nr c). change (c_timeoffset c2) with (c_timeoffset c). rewrite (lc_start c now S), (lc_toff c now S). exact H0k. }
    split. { split; [intros q (Q2 & _); exfalso; apply Q2; exact (lc_stop c now S)|intros Q2; exfalso; apply Q2; reflexivity]. }
    split; [lra|]. right. intros b' Eb. rewrite TS in Eb. injection Eb as <-.
    specialize (STL b E3). unfold leaves_at in STL. rewrite E2, E5, E6, Ee in STL. rewrite SEE.
    change (c_seg_dur c2) with (c_seg_dur c).
    eapply Qle_trans; [exact STL|].
    apply (Qmult_le_r _ _ (inject_Z (tg_timescale g))); [change 0%Q with (inject_Z 0); rewrite <- Zlt_Qlt; exact Hts|].
    rewrite Qmult_plus_distr_l.
    assert (TN : ~ (inject_Z (tg_timescale g) == 0)%Q) by (change 0%Q with (inject_Z 0); rewrite inject_Z_injective; lia).
    assert (DV : (inject_Z (live_end g k - ls_period v * tg_timescale g) / inject_Z (tg_timescale g) * inject_Z (tg_timescale g) ==
                  inject_Z (live_end g k - ls_period v * tg_timescale g))%Q) by (field; exact TN).
    rewrite DV. rewrite <- !inject_Z_mult, <- inject_Z_plus, <- Zle_Qle.
    clear - DE Wd Hts. set (T := tg_timescale g) in *. set (D0 := c_seg_dur c) in *.
    assert (T <= D0 * T) by (rewrite <- (Z.mul_1_l T) at 1; apply Z.mul_le_mono_nonneg_r; lia).
    assert (LE : live_end g k <= (k + 1) * D0 * T + T) by lia.
    replace ((c_ast c + (k + 1) * D0 + D0 + b) * T) with ((k + 1) * D0 * T + D0 * T + (c_ast c + b) * T) by ring.
    replace ((c_ast c + ls_period v + b) * T + (live_end g k - ls_period v * T)) with (live_end g k + (c_ast c + b) * T) by ring. lia. }
  destruct (C68_window_pf limit s r at_ sid history c2 rep k l AD HR SK PC2 MR NC eq_refl NS (lc_sidx c now S) ltac:(lia) AN F2 SE2) as (reply & H & K1 & _).
  specialize (K1 AV).
  destruct (C67_single_pf limit s r at_ sid history c2 rep k false l reply AD HR SK T1 PC2 (mr_ext c2 k MR) NC (mr_nr c2 k MR) eq_refl NS) as [Z|(_ & _ & _ & _ & out & BD & SO2)]; auto.
  - apply gd_plain. exact MU.
  - apply SE.
  - congruence.
  - exists reply, out. split; [exact H|]. split; [exact K1|]. split; [exact BD|].
    split; [exists k; split; [intros SG; rewrite (NUM SG ltac:(lia)); reflexivity|exact SO2]|].
    intros ts TS'. pose proof (sent_times _ _ _ _ _ _ _ _ SO2 TS') as KT.
    change (rep_timescale rep) with (m_timescale m) in KT. rewrite SHI, map_map in KT. erewrite map_ext; [exact KT|]. intros u. cbv beta.
    rewrite N2, TSC. ring.
Qed.

(** Examples: by time with sixty periods an hour, at second 4210 in the second
    turn of the content; by number with one period at second 1210. *)
Definition list_site : site :=
  mk_site tl_read (fun _ _ _ _ => Ok (encs ex_l)) (fun _ _ _ => Err "FileNotFoundError")
    (fun _ _ _ => Err "KeyError") (fun why c now => "refused " ++ c_filename c).
Lemma list_site_ok : site_ok list_site.
Proof. intros name v H. cbn in H. unfold tl_read in H. destruct (String.eqb name "testpic"); [|discriminate]. injection H as <-. split; reflexivity. Qed.
Definition by_time : list (string * string) := [("periods", "60"); ("tsbd", "60"); ("segtimeline", "1")].
Definition by_number : list (string * string) := [("segtimelinenr", "1"); ("tsbd", "30")].
Definition list_cfg (opts : list (string * string)) (now : Z) : config :=
  match provider_config list_site (play_request opts) (inject_Z now) with Ok c => c | Err _ => config_init "" end.
Definition time_cfg : config := Eval vm_compute in list_cfg by_time 4210.
Definition number_cfg : config := Eval vm_compute in list_cfg by_number 1210.
Definition time_mpd : xml := Eval vm_compute in match get_mpd time_cfg tl_env ex_source 4210 with Ok x => x | Err _ => ex_source end.
Definition number_mpd : xml := Eval vm_compute in match get_mpd number_cfg tl_env ex_source 1210 with Ok x => x | Err _ => ex_source end.
Definition time_view : listing :=
  mk_listing "http://h/livesim/periods_60/tsbd_60/segtimeline_1/testpic/" 0 (Some 60) 4140 "video" "V2" "$RepresentationID$/t$Time$.m4s" 1 90000 372600000
    [(373140000, 540000); (373680000, 540000); (374220000, 540000); (374760000, 540000); (375300000, 540000); (375840000, 540000);
     (376380000, 540000); (376920000, 540000); (377460000, 540000)].
Definition number_view : listing :=
  mk_listing "http://h/livesim/segtimelinenr_1/tsbd_30/testpic/" 0 (Some 30) 0 "video" "V2" "$RepresentationID$/$Number$.m4s" 196 90000 0
    [(105840000, 540000); (106380000, 540000); (106920000, 540000); (107460000, 540000); (108000000, 540000)].
Definition time_period (i : nat) : xml := nth i (children "Period" time_mpd) ex_source.
Example time_lists_in : lists_in time_mpd (time_period 0) time_view.
Proof.
  eapply (lists_intro _ _ (Elem "BaseURL" [] (ls_base time_view) []) _ _ _ _ 0 (Some 60) _ 4140 "video" "V2" _ 1 90000 372600000).
  - vm_compute. reflexivity.
  - vm_compute. reflexivity.
  - exists 1970, 1, 1, 0, 0, 0. split; [vm_compute; reflexivity|]. split; [|vm_compute; reflexivity]. vm_compute. intuition discriminate.
  - exists 60. split; [vm_compute; reflexivity|reflexivity].
  - vm_compute. reflexivity.
  - vm_compute. reflexivity.
  - vm_compute. right. left. reflexivity.
  - vm_compute. reflexivity.
  - vm_compute. right. left. reflexivity.
  - vm_compute. reflexivity.
  - vm_compute. left. reflexivity.
  - vm_compute. reflexivity.
  - vm_compute. reflexivity.
  - vm_compute. reflexivity.
  - vm_compute. reflexivity.
  - vm_compute. reflexivity.
Qed.
Definition time_view2 : listing :=
  mk_listing "http://h/livesim/periods_60/tsbd_60/segtimeline_1/testpic/" 0 (Some 60) 4200 "video" "V2" "$RepresentationID$/t$Time$.m4s" 1 90000 378000000
    [(377460000, 540000); (378000000, 540000)].
Example time_lists_in2 : lists_in time_mpd (time_period 1) time_view2.
Proof.
  eapply (lists_intro _ _ (Elem "BaseURL" [] (ls_base time_view2) []) _ _ _ _ 0 (Some 60) _ 4200 "video" "V2" _ 1 90000 378000000).
  - vm_compute. reflexivity.
  - vm_compute. reflexivity.
  - exists 1970, 1, 1, 0, 0, 0. split; [vm_compute; reflexivity|]. split; [|vm_compute; reflexivity]. vm_compute. intuition discriminate.
  - exists 60. split; [vm_compute; reflexivity|reflexivity].
  - vm_compute. reflexivity.
  - vm_compute. reflexivity.
  - vm_compute. right. left. reflexivity.
  - vm_compute. reflexivity.
  - vm_compute. right. left. reflexivity.
  - vm_compute. reflexivity.
  - vm_compute. left. reflexivity.
  - vm_compute. reflexivity.
  - vm_compute. reflexivity.
  - vm_compute. reflexivity.
  - vm_compute. reflexivity.
  - vm_compute. reflexivity.
Qed.
Example number_lists_in : lists_in number_mpd (nth 0 (children "Period" number_mpd) ex_source) number_view.
Proof.
  eapply (lists_intro _ _ (Elem "BaseURL" [] (ls_base number_view) []) _ _ _ _ 0 (Some 30) _ 0 "video" "V2" _ 196 90000 0).
  - vm_compute. reflexivity.
  - vm_compute. reflexivity.
  - exists 1970, 1, 1, 0, 0, 0. split; [vm_compute; reflexivity|]. split; [|vm_compute; reflexivity]. vm_compute. intuition discriminate.
  - exists 30. split; [vm_compute; reflexivity|reflexivity].
  - vm_compute. reflexivity.
  - vm_compute. reflexivity.
  - vm_compute. right. left. reflexivity.
  - vm_compute. reflexivity.
  - vm_compute. right. left. reflexivity.
  - vm_compute. reflexivity.
  - vm_compute. left. reflexivity.
  - vm_compute. reflexivity.
  - vm_compute. reflexivity.
  - vm_compute. reflexivity.
  - vm_compute. reflexivity.
  - vm_compute. reflexivity.
Qed.
Lemma list_clean : forall c lo hi, c_media_data c = v_media tl_vod -> c_wrap_secs c = 3600 -> c_vod_n c = 600 -> c_vod_first c = 1 ->
  0 <= lo -> lo / 3600 = hi / 3600 -> clean_tables c tl_tables lo hi.
Proof.
  intros c lo hi E1 E2 E3 E4 L0 LH ct g (m & f & t & F & D & T & ->). rewrite E1 in F. rewrite E2, E3, E4.
  assert (W : forall g st en, gen_ok g -> tg_wrap g = 3600 * tg_timescale g -> lo <= st <= en -> en <= hi -> clean_window g st en).
  { intros g st en G Ew S1 S2. apply C26_one_turn_pf; [exact G|lia|]. destruct G as (_ & Hts & _).
    rewrite Ew, !Z.div_mul_cancel_r by lia.
    pose proof (Z.div_le_mono lo st 3600 ltac:(lia) ltac:(lia)). pose proof (Z.div_le_mono st en 3600 ltac:(lia) ltac:(lia)).
    pose proof (Z.div_le_mono en hi 3600 ltac:(lia) ltac:(lia)). lia. }
  unfold tl_vod in F. cbn [v_media List.find fst] in F.
  destruct (String.eqb_spec "video" ct) as [<-|_].
  - injection F as <-. cbn [m_dat] in D. injection D as <-. vm_compute in T. injection T as <-.
    split; [apply ex_tables|]. intros st en. apply W; [apply ex_tables|reflexivity].
  - destruct (String.eqb_spec "audio" ct) as [<-|_]; [|discriminate]. injection F as <-. cbn [m_dat] in D. injection D as <-. vm_compute in T. injection T as <-.
    split; [apply tl_audio_ok|]. intros st en. apply W; [apply tl_audio_ok|reflexivity].
Qed.
Ltac slash_tac := unfold no_slash; vm_compute; intuition discriminate.
Example time_session : listed_session time_cfg 4210.
Proof.
  constructor; try reflexivity; try (vm_compute; discriminate).
  - left. reflexivity.
  - right. split; [exists 60, 60; repeat split; try reflexivity; try (vm_compute; congruence); left; reflexivity|].
    split; [reflexivity|]. split; [reflexivity|]. split; [left; vm_compute; discriminate|]. exists 60. split; [reflexivity|vm_compute; discriminate].
  - exists 0%Q. split; [reflexivity|lra].
  - exists 60. split; [reflexivity|lia].
  - vm_compute. split; discriminate.
Qed.
Example time_following :
  following list_site (play_request by_time) by_time "testpic" 4210 time_cfg tl_vod time_mpd time_view
    (mkMedia 90000 ["V1"; "V2"] None (Some "video.dat")) ex_video "livesim" "Manifest.mpd".
Proof.
  constructor; try match goal with |- no_slash _ => slash_tac end.
  - repeat constructor.
  - repeat constructor; slash_tac.
  - split; [vm_compute; intuition discriminate|slash_tac].
  - repeat constructor; intros k w K; vm_compute in K; try discriminate; injection K as <- <-; vm_compute; intuition discriminate.
  - reflexivity.
  - exact list_site_ok.
  - reflexivity.
  - vm_compute. reflexivity.
  - exact time_session.
  - exists tl_env, ex_source. do 3 eexists. exists 60. split; [vm_compute; reflexivity|].
    split; [instantiate (3 := [_]); reflexivity|]. split; [repeat constructor|]. split; [reflexivity|]. split; [constructor|].
    split. { intros A T IA IT. cbn in IA. destruct IA as [<-|[<-|[]]]; cbn in IT; destruct IT as [<-|[]]; split; reflexivity. }
    split. { eexists. eexists. eexists. split; [vm_compute; reflexivity|]. split; [reflexivity|]. split; [vm_compute; reflexivity|]. vm_compute. reflexivity. }
    split; [reflexivity|]. apply list_clean; reflexivity || (vm_compute; discriminate).
  - exists (time_period 0). split; [left; reflexivity|exact time_lists_in].
  - split; [reflexivity|discriminate].
  - reflexivity.
  - exact ex_video_grid.
  - split; [reflexivity|slash_tac].
  - reflexivity.
  - left. reflexivity.
Qed.
Example number_following :
  following list_site (play_request by_number) by_number "testpic" 1210 number_cfg tl_vod number_mpd number_view
    (mkMedia 90000 ["V1"; "V2"] None (Some "video.dat")) ex_video "livesim" "Manifest.mpd".
Proof.
  constructor; try match goal with |- no_slash _ => slash_tac end.
  - repeat constructor.
  - repeat constructor; slash_tac.
  - split; [vm_compute; intuition discriminate|slash_tac].
  - repeat constructor; intros k w K; vm_compute in K; try discriminate; injection K as <- <-; vm_compute; intuition discriminate.
  - reflexivity.
  - exact list_site_ok.
  - reflexivity.
  - vm_compute. reflexivity.
  - constructor; try reflexivity; try (vm_compute; discriminate).
    + right. reflexivity.
    + left. reflexivity.
    + exists 0%Q. split; [reflexivity|lra].
    + exists 30. split; [reflexivity|lia].
    + vm_compute. split; discriminate.
  - exists tl_env, ex_source. do 3 eexists. exists 30. split; [vm_compute; reflexivity|].
    split; [instantiate (3 := [_]); reflexivity|]. split; [repeat constructor|]. split; [reflexivity|]. split; [constructor|].
    split. { intros A T IA IT. cbn in IA. destruct IA as [<-|[<-|[]]]; cbn in IT; destruct IT as [<-|[]]; split; reflexivity. }
    split. { eexists. eexists. eexists. split; [vm_compute; reflexivity|]. split; [reflexivity|]. split; [vm_compute; reflexivity|]. vm_compute. reflexivity. }
    split; [reflexivity|]. apply list_clean; reflexivity || (vm_compute; discriminate).
  - eexists. split; [|exact number_lists_in]. left. reflexivity.
  - split; [reflexivity|discriminate].
  - reflexivity.
  - exact ex_video_grid.
  - split; [reflexivity|slash_tac].
  - reflexivity.
  - left. reflexivity.
Qed.
(** The third listed segment, by time: the stored one is number 94, one turn of
    the content earlier.  It may be requested until second 4224.  The last one
    of the other session is number 200. *)
Example C72_listed_case :
  let r := ex_request "/livesim/periods_60/tsbd_60/segtimeline_1/testpic/V2/t374220000.m4s" None in
  let r' := ex_request "/livesim/segtimelinenr_1/tsbd_30/testpic/V2/200.m4s" None in
  nth_error (ls_segments time_view) 2 = Some (374220000, 540000) /\
  for_url r (listed_url time_view 2 374220000) /\ hr_range r = None /\ admitted 0 r 4220 /\
  still_there time_view 374220000 540000 4220 /\ ~ still_there time_view 374220000 540000 4225 /\
  nth_error (table_segs (tg_table ex_video)) 93 = Some (50220000, 540000) /\ 374220000 = 50220000 + 1 * (600 * 6) * 90000 /\
  st_files list_site "testpic" "V2" (v_first tl_vod + 93) ".m4s" = Ok (encs ex_l) /\ sendable (374220000 - 50220000) ex_l /\
  for_url r' (listed_url number_view 4 108000000) /\ still_there number_view 108000000 540000 1230.
Proof.
  cbn zeta. split; [reflexivity|].
  split. { split; [vm_compute; reflexivity|]. split; [slash_tac|]. eexists. reflexivity. }
  split; [reflexivity|]. split; [left; reflexivity|].
  split. { intros b H. injection H as <-. vm_compute. discriminate. }
  split. { intros H. specialize (H _ eq_refl). vm_compute in H. apply H. reflexivity. }
  split; [vm_compute; reflexivity|]. split; [lia|]. split; [reflexivity|].
  split; [apply ex_l_sendable; lia|].
  split. { split; [vm_compute; reflexivity|]. split; [slash_tac|]. eexists. reflexivity. }
  intros b H. injection H as <-. vm_compute. discriminate.
Qed.

(** ** C73: the lists of the Periods.  Every listed segment is complete, and it
    ends in its Period: not before its start and not after the start of the
    next one; so a segment in two lists ends exactly where the later Period
    begins. *)
Lemma C73_inside_partial_pf : forall c e src now x progs period rest b i P v,
  listed_session c now -> 0 < c_seg_dur c -> c_tsbd c = Some b ->
  clean_tables c (me_tables e) (Z.max 0 (now - b - c_ast c)) (now - c_ast c) ->
  x_kids src = (progs ++ period :: rest)%list ->
  Forall (fun y => x_tag y = "ProgramInformation") progs -> x_tag period = "Period" ->
  Forall (fun y => ~ In (x_tag y) ["Period"; "BaseURL"]) rest ->
  (forall A T, In A (children "AdaptationSet" period) -> In T (children "SegmentTemplate" A) ->
     get "presentationTimeOffset" T = None /\ get "media" T = Some "$RepresentationID$/$Number$.m4s") ->
  get_mpd c e src now = Ok x -> nth_error (children "Period" x) i = Some P -> lists_in x P v ->
  forall t d, In (t, d) (ls_segments v) ->
    0 <= ends_after v t d <= (now - c_ast c - ls_period v) * ls_scale v /\
    forall P' z', nth_error (children "Period" x) (S i) = Some P' -> starts_at P' z' ->
      ends_after v t d <= (z' - ls_period v) * ls_scale v.
Proof.
  intros c e src now x progs period rest b i P v LS D TS CT K FP TP NR HT G IP V t d I.
  assert (B0 : 0 <= b). { destruct (lc_depth c now LS) as (b' & TS' & B0). congruence. }
  destruct (seen_list _ _ _ _ _ _ _ _ b i P v LS D TS B0 CT K FP TP NR HT G IP V)
    as (_ & _ & _ & _ & g & a & z & st & en & TT & GO & E5 & E6 & ST1 & ST0 & EN1 & NXT & _ & FA & LZ & LR & _).
  rewrite LR in I. apply In_nth_error in I. destruct I as (j & I). rewrite nth_range in I.
  destruct (Z.ltb_spec (Z.of_nat j) (z - a + 1)) as [Q|Q]; [|discriminate]. injection I as I.
  assert (Ee : t + d = live_end g (a + Z.of_nat j)) by (unfold live_end; rewrite I; reflexivity).
  pose proof GO as (_ & Hts & _).
  pose proof (live_end_mono g GO a (a + Z.of_nat j) ltac:(lia)) as M1. pose proof (live_end_mono g GO (a + Z.of_nat j) z ltac:(lia)) as M2.
  pose proof (first_within g GO _ _ FA) as FW. destruct LZ as (_ & LZ & _).
  unfold ends_after. rewrite E5, E6, Ee. rewrite !Z.mul_sub_distr_r.
  assert (L1 : ls_period v * tg_timescale g <= st * tg_timescale g) by (apply Z.mul_le_mono_nonneg_r; lia).
  assert (L2 : en * tg_timescale g <= (now - c_ast c) * tg_timescale g) by (apply Z.mul_le_mono_nonneg_r; lia).
  rewrite Z.mul_sub_distr_r in L2.
  split; [lia|]. intros P' z' N S'. destruct (NXT P' z' N S') as (L3 & _).
  assert (en * tg_timescale g <= z' * tg_timescale g) by (apply Z.mul_le_mono_nonneg_r; lia). lia.
Qed.

(** Every segment of the content that is complete, ends in the Period (after
    its start and not after the next one's) and after the beginning of the time
    shift buffer is listed in it. *)
Lemma C73_complete_partial_pf : forall c e src now x progs period rest b i P v g,
  listed_session c now -> c_etp c <= 0 -> 0 < c_seg_dur c -> c_tsbd c = Some b ->
  clean_tables c (me_tables e) (Z.max 0 (now - b - c_ast c)) (now - c_ast c) ->
  x_kids src = (progs ++ period :: rest)%list ->
  Forall (fun y => x_tag y = "ProgramInformation") progs -> x_tag period = "Period" ->
  Forall (fun y => ~ In (x_tag y) ["Period"; "BaseURL"]) rest ->
  (forall A T, In A (children "AdaptationSet" period) -> In T (children "SegmentTemplate" A) ->
     get "presentationTimeOffset" T = None /\ get "media" T = Some "$RepresentationID$/$Number$.m4s") ->
  get_mpd c e src now = Ok x -> nth_error (children "Period" x) i = Some P -> lists_in x P v ->
  track_table c (me_tables e) (ls_type v) g ->
  forall k t d, 0 <= k -> live_seg g k = (t, d) ->
    0 < ends_after v t d -> (now - b - c_ast c) * ls_scale v < t + d <= (now - c_ast c) * ls_scale v ->
    (forall P', nth_error (children "Period" x) (S i) = Some P' -> exists z', starts_at P' z' /\ ends_after v t d <= (z' - ls_period v) * ls_scale v) ->
    In (t, d) (ls_segments v).
Proof.
  intros c e src now x progs period rest b i P v g LS NE D TS CT K FP TP NR HT G IP V TT k t d K0 EK E0 E1 EN.
  assert (B0 : 0 <= b). { destruct (lc_depth c now LS) as (b' & TS' & B0). congruence. }
  destruct (seen_list _ _ _ _ _ _ _ _ b i P v LS D TS B0 CT K FP TP NR HT G IP V)
    as (_ & _ & _ & _ & g' & a & z & st & en & TT' & GO & E5 & E6 & ST1 & ST0 & EN1 & NXT & LST & FA & LZ & LR & _).
  assert (g' = g). { destruct TT as (m1 & f1 & t1 & F1 & D1 & T1 & ->). destruct TT' as (m2 & f2 & t2 & F2 & D2 & T2 & ->).
    rewrite F1 in F2. injection F2 as <-. rewrite D1 in D2. injection D2 as <-. rewrite T1 in T2. injection T2 as <-. reflexivity. } subst g'.
  pose proof GO as (_ & Hts & _).
  assert (Ee : t + d = live_end g k) by (unfold live_end; rewrite EK; reflexivity).
  unfold ends_after in E0, EN. rewrite E5, E6, Ee in *.
  assert (S1 : st * tg_timescale g < live_end g k).
  { rewrite ST1. destruct (Z.max_spec (ls_period v) (now - b - c_ast c)) as [[_ ->]|[_ ->]]; lia. }
  assert (S2 : live_end g k <= en * tg_timescale g).
  { destruct (nth_error (children "Period" x) (S i)) as [P'|] eqn:N.
    - destruct (EN P' eq_refl) as (z' & W & Y). destruct (NXT P' z' eq_refl W) as (_ & ->); [|exact NE].
      rewrite Z.mul_sub_distr_r in Y. destruct (Z.min_spec z' (now - c_ast c)) as [[_ ->]|[_ ->]]; lia.
    - rewrite (LST eq_refl NE). apply E1. }
  assert (A1 : a <= k).
  { destruct (Z.le_gt_cases a k) as [|GT]; [assumption|exfalso]. pose proof (live_start_lt g GO k a ltac:(lia)) as X.
    pose proof (first_within g GO _ _ FA). lia. }
  assert (A2 : k <= z).
  { destruct (Z.le_gt_cases k z) as [|GT]; [assumption|exfalso]. pose proof (live_end_mono g GO (z + 1) k ltac:(lia)) as X.
    destruct LZ as (_ & _ & LZ). lia. }
  rewrite LR. unfold live_range. rewrite <- EK. apply in_map_iff. exists (Z.to_nat (k - a)). split; [f_equal; lia|]. apply in_seq. lia.
Qed.

(** The manifest of the example: the segment from 4194 to 4200 is in the list
    of the Period from 4140 on and, first, in the one from 4200 on. *)
Example C73_case : exists progs period,
  listed_session time_cfg 4210 /\ c_etp time_cfg <= 0 /\ 0 < c_seg_dur time_cfg /\ c_tsbd time_cfg = Some 60 /\
  clean_tables time_cfg (me_tables tl_env) (Z.max 0 (4210 - 60 - c_ast time_cfg)) (4210 - c_ast time_cfg) /\
  x_kids ex_source = (progs ++ period :: [])%list /\ Forall (fun y => x_tag y = "ProgramInformation") progs /\ x_tag period = "Period" /\
  (forall A T, In A (children "AdaptationSet" period) -> In T (children "SegmentTemplate" A) ->
     get "presentationTimeOffset" T = None /\ get "media" T = Some "$RepresentationID$/$Number$.m4s") /\
  get_mpd time_cfg tl_env ex_source 4210 = Ok time_mpd /\
  nth_error (children "Period" time_mpd) 0 = Some (time_period 0) /\ nth_error (children "Period" time_mpd) 1 = Some (time_period 1) /\
  lists_in time_mpd (time_period 0) time_view /\ starts_at (time_period 1) 4200 /\
  track_table time_cfg (me_tables tl_env) (ls_type time_view) ex_video /\
  live_seg ex_video 699 = (377460000, 540000) /\
  0 < ends_after time_view 377460000 540000 /\ ends_after time_view 377460000 540000 = (4200 - 4140) * 90000.
Proof.
  exists [nth 0 (x_kids ex_source) ex_source], (nth 1 (x_kids ex_source) ex_source).
  split; [exact time_session|]. split; [vm_compute; discriminate|]. split; [reflexivity|]. split; [reflexivity|].
  split. { apply list_clean; reflexivity || (vm_compute; discriminate). }
  split; [reflexivity|]. split; [repeat constructor|]. split; [reflexivity|].
  split. { intros A T IA IT. cbn in IA. destruct IA as [<-|[<-|[]]]; cbn in IT; destruct IT as [<-|[]]; split; reflexivity. }
  split; [vm_compute; reflexivity|]. split; [reflexivity|]. split; [reflexivity|]. split; [exact time_lists_in|].
  split. { eexists. split; vm_compute; reflexivity. }
  split. { eexists. eexists. eexists. split; [vm_compute; reflexivity|]. split; [reflexivity|]. split; [vm_compute; reflexivity|]. vm_compute. reflexivity. }
  split; [vm_compute; reflexivity|]. split; reflexivity.
Qed.
(** Finding: a segment that ends where a Period begins is listed in both
    Periods, though nothing of it is presented in the later one. *)
Lemma C73_twice_refuted_pf : exists c src now x P P' v v' t d,
  listed_session c now /\ c_etp c <= 0 /\
  get_mpd c tl_env src now = Ok x /\ children "Period" x = [P; P'] /\
  lists_in x P v /\ lists_in x P' v' /\ ls_id v = ls_id v' /\ ls_type v = ls_type v' /\
  In (t, d) (ls_segments v) /\ In (t, d) (ls_segments v') /\ 0 < d /\ ends_after v' t d = 0.
Proof.
  exists time_cfg, ex_source, 4210, time_mpd, (time_period 0), (time_period 1), time_view, time_view2, 377460000, 540000.
  split; [exact time_session|]. split; [vm_compute; discriminate|]. split; [vm_compute; reflexivity|]. split; [reflexivity|].
  split; [exact time_lists_in|]. split; [exact time_lists_in2|]. split; [reflexivity|]. split; [reflexivity|].
  split; [do 8 right; left; reflexivity|]. split; [left; reflexivity|]. split; [lia|reflexivity].
Qed.
