(** Descriptors of the live manifest (C70) and the events in the media (C71). *)
From Verif Require Import Base BaseProofs BytesModel BytesProofs StrModel BoxSpec ConfigModel ConfigProofs ConfigTheory
  ProxyModel ProxySpec ProxyProofs ProxyTheory Proxy2Theory SessionProofs ClockProofs TimeModel PeriodModel PeriodSpec PeriodProofs PeriodTheory
  MpdModel MpdSpec MpdProofs MpdTheory Mpd2Spec Mpd2Proofs Mpd2Theory Mpd3Spec Mpd3Proofs Mpd3Theory
  EmsgSpec MediaSpec MediaTheory HttpModel HttpSpec HttpProofs HttpTheory EndSpec EndTheory PlayerTheory PlayerProofs SignalSpec SignalProofs.
Local Open Scope string_scope.
Open Scope Z_scope.

(** ** C70 *)
Lemma C70_signals_pf : forall s r t0 c e src x pre period rest,
  site_ok s -> provider_config s r t0 = Ok c ->
  (forall u l X Y, c_multi_url c = u :: l -> parse_updown u = Ok (("u"%char, X), ("d"%char, Y)) -> 0 <= X /\ 0 <= Y) ->
  (forall b, c_tsbd c = Some b -> 0 <= b) ->
  x_kids src = (pre ++ period :: rest)%list -> x_tag period = "Period" ->
  Forall (fun y => x_tag y <> "Period") pre -> Forall (fun y => x_tag y <> "Period") rest ->
  get_mpd c e src (py_int_of_Q t0) = Ok x ->
  forall i P, nth_error (children "Period" x) i = Some P ->
    Forall2 (signalled c (py_int_of_Q t0) (period_before x i)) (children "AdaptationSet" period) (children "AdaptationSet" P).
Proof.
  intros s r t0 c e src x pre period rest SK PC Sn B K TP NP NR G i P N.
  destruct (provider_wf _ _ _ _ SK PC) as (W & EL).
  destruct (loss_flag c e src _ x Sn EL G) as (em & t & G' & EM).
  destruct (generate_inv _ _ _ _ _ _ G') as (d & sn & mup & ps & root & kids & D & SN & GP & _ & _ & _).
  assert (B' : forall b, c_tsbd c = Some b -> 0 <= b + c_seg_dur c) by (intros b T; specialize (B b T); destruct W; lia).
  assert (NE := schedule_nonempty _ _ _ _ _ _ B' GP).
  destruct (tree_periods _ _ _ _ _ _ _ _ _ _ _ _ _ K NP TP NR G' D SN GP NE) as (cb & ps' & PS & F).
  assert (IDS : Forall (fun p => exists r, pd_id p = "p" ++ r) ps').
  { pose proof (ids_p _ _ _ _ _ _ GP) as J. destruct PS as [-> |(p & r0 & -> & ->)]; [exact J|]. inversion J. constructor; [assumption|constructor]. }
  refine (signals_chain (mk_penv c t em d cb) _ period ps' _ "-1" None EM IDS (or_introl (conj eq_refl eq_refl)) _ i P N).
  eapply chained_impl; [|exact F]. cbv beta. intros j p Q (g & g' & A & _). exists g, g'. exact A.
Qed.

(** ** C71 *)
Lemma emsg_change : forall r d b bs d' x, doc_change r d b bs d' -> In x bs -> btype x = btype b \/ In x (rq_events r).
Proof. intros r d b bs d' x H I. destruct H; cbn [In] in I; intuition (subst; auto). Qed.
Lemma emsg_top : forall r d l l' d', top_changes r d l l' d' -> Forall (fun b => btype b <> bstr "emsg") l ->
  forall x, In x l' -> btype x = bstr "emsg" -> In x (rq_events r).
Proof.
  intros r d l l' d' H. induction H as [d|d b bs d1 l l' d2 T C H IH|d b l l' d2 T H IH]; intros F x I E; [destruct I| |].
  - inversion F as [|? ? F1 F2]; subst. apply in_app_iff in I. destruct I as [I|I]; [|apply IH; assumption].
    destruct (emsg_change _ _ _ _ _ _ C I) as [Q|Q]; [|exact Q]. congruence.
  - inversion F as [|? ? F1 F2]; subst. destruct I as [<-|I]; [contradiction|]. apply IH; assumption.
Qed.
Lemma events_kept : forall r d l l' d', top_changes r d l l' d' -> forall p, In (Leaf (bstr "styp") p) l -> incl (rq_events r) l'.
Proof.
  intros r d l l' d' H. induction H as [d|d b bs d1 l l' d2 T C H IH|d b l l' d2 T H IH]; intros p I; [destruct I| |].
  - destruct I as [->|I]; [|apply incl_appr; eapply IH; eassumption].
    inversion C; subst; try (apply incl_appl, incl_tl, incl_refl).
    exfalso. match goal with K : ~ In _ special |- _ => apply K; vm_compute; tauto end.
  - destruct I as [->|I]; [exfalso; apply T; vm_compute; tauto|]. apply incl_tl. eapply IH; eassumption.
Qed.
Lemma inserted_in : forall x l l' b, inserted x l l' -> In b x \/ In b l -> In b l'.
Proof.
  intros x l l' b [(a & m & c & -> & _ & _ & ->)|(_ & ->)] I.
  - rewrite !in_app_iff in *. cbn [In] in *. tauto.
  - apply in_app_iff. tauto.
Qed.
Lemma in_inserted : forall x l l' b, inserted x l l' -> In b l' -> In b x \/ In b l.
Proof.
  intros x l l' b [(a & m & c & -> & _ & _ & ->)|(_ & ->)] I.
  - rewrite !in_app_iff in *. cbn [In] in *. tauto.
  - apply in_app_iff in I. tauto.
Qed.
(** Where the events of a segment come from, when the stored one has none. *)
Lemma emsg_sent : forall c rep n sec down l out b, sent c rep n sec down l out -> Forall (fun b => btype b <> bstr "emsg") l ->
  In b out -> btype b = bstr "emsg" ->
  (rep_type rep = "video" /\ 1 <= c_scte35 c <= 8 /\ exists u, b = splice_box (c_scte35 c) (n * c_seg_dur c) u) \/ (down = true /\ down_event sec b).
Proof.
  intros c rep n sec down l out b (last & ev & e & sx & l1 & g & TC & INS & _ & DN & SX & _ & EV1 & EV2) F I E.
  destruct (in_inserted _ _ _ _ INS I) as [J|J].
  - apply in_app_iff in J. destruct J as [J|J].
    + right. destruct down; [|subst e; destruct J]. destruct DN as (b0 & -> & DE). destruct J as [<-|[]]. auto.
    + rewrite Forall_forall in SX. specialize (SX b J). rewrite E in SX. discriminate.
  - left. assert (J' := emsg_top _ _ _ _ _ TC F b J E). cbn [rq_events] in J'.
    destruct (string_dec (rep_type rep) "video") as [V|V]; [|rewrite (EV1 V) in J'; destruct J'].
    split; [exact V|]. destruct (EV2 V) as ([-> |(N & t & -> & _)] & _); [destruct J'|]. destruct J' as [<-|[]]. split; [exact N|]. exists t. reflexivity.
Qed.

(** [r] asks for segment [n] of representation [rp] of the session whose manifest
    was fetched with [r0]. *)
Record same_session (s : site) (r0 r : http_request) (opts : list (string * string)) (first name mfile : string) (t0 : Q)
    (c : config) (vc : vodcfg) (rp ct : string) (m : media) (n : Z) : Prop := {
  sn_opts : Forall (fun kv => str_in (fst kv) url_cfg_keys = true) opts;
  sn_texts : Forall no_slash (map opt_text opts);
  sn_name : plain_name name /\ no_slash name;
  sn_first : no_slash first;
  sn_file : no_slash mfile;
  sn_host : no_slash (hr_host r0);
  sn_clock : Forall clock_free (manifest_parts opts name mfile);
  sn_path : hr_path r0 = "/" ++ join "/" (first :: manifest_parts opts name mfile);
  sn_site : site_ok s;
  sn_vod : st_vod s name = Ok vc;
  sn_config : provider_config s r0 t0 = Ok c;
  sn_rep : content_type_for_rep (v_media vc) rp = Some (ct, m) /\ ct <> "subtitles";
  sn_id : split_dunder rp = [rp] /\ no_slash rp;
  sn_number : 0 <= n;
  sn_url : for_url r (c_base_url c ++ rp ++ "/" ++ print_Z n ++ ".m4s")
}.
(** Every AdaptationSet of every Period of [x], or every video one. *)
Definition everywhere (x : xml) (scheme : string) : Prop :=
  forall P A, In P (children "Period" x) -> In A (children "AdaptationSet" P) -> announces scheme A.
Definition in_video (x : xml) (scheme : string) : Prop :=
  forall P A, In P (children "Period" x) -> In A (children "AdaptationSet" P) -> says_video A -> announces scheme A.

Lemma F2_in : forall {A B} (R : A -> B -> Prop) l l' b, Forall2 R l l' -> In b l' -> exists a, In a l /\ R a b.
Proof.
  intros A B R l l' b F. induction F as [|a b0 l l' H F IH]; intros I; [destruct I|].
  destruct I as [<-|I]; [exists a; cbn; auto|]. destruct (IH I) as (a' & J & K). exists a'. cbn; auto.
Qed.

(** The segments of a session. *)
Lemma session_sent : forall limit s sid history r0 r opts first name mfile t0 t c vc rp ct m n l reply down,
  same_session s r0 r opts first name mfile t0 c vc rp ct m n ->
  admitted limit r t -> hr_range r = None -> (0 <= t)%Q -> not_chunked c -> going_down c (py_int_of_Q t) down ->
  st_files s name rp (source_file c n) ".m4s" = Ok (encs l) -> segment_ok l ->
  fst (application limit s r t sid (run limit s history [])) = Ok reply -> rp_status reply = 200 ->
  exists out, rp_body reply = [encs out] /\ sent c (mkRep rp ct (m_timescale m)) n (py_int_of_Q t) down l out.
Proof.
  intros limit s sid history r0 r opts first name mfile t0 t c vc rp ct m n l reply down
    [FO SO (PN & SN) SF SM SH CF HP SK VC PC (CT & NS) (SD & NI) N0 FU] AD HR T0 NC GD F OKL AP ST.
  set (file := print_Z n ++ ".m4s") in *.
  assert (NF : no_slash file).
  { apply no_slash_app; [|unfold no_slash; cbn; intuition discriminate].
    exact (number_no_slash "" n ltac:(unfold no_slash; cbn; tauto)). }
  destruct (player_config s r0 r opts first name mfile t0 t c vc rp file ct m FO PN SO SN SF SM SH CF HP PC VC SD CT NI NF FU) as (p & PC2 & PP).
  set (c2 := refile rp file [mkRep rp ct (m_timescale m)] (set_publish_time p c)) in *.
  assert (MR : c_ext c2 = ".m4s" /\ request_nr c2 = Ok n).
  { unfold c2, file. replace (print_Z n) with (print_nat n) by (unfold print_Z; destruct (Z.ltb_spec n 0); [lia|reflexivity]).
    pose proof (refile_request (set_multi_url [] (set_publish_time p c)) rp n ct (m_timescale m) N0 ltac:(discriminate)) as M.
    split; [exact (mr_ext _ _ M)|exact (mr_nr _ _ M)]. }
  destruct MR as (MX & MN).
  assert (CN : c_content_name c = name).
  { pose proof PC as PC'. unfold provider_config, path_parts in PC'. rewrite HP, split_slash, split_join in PC'; [|discriminate|].
    2:{ constructor; [exact SF|]. unfold manifest_parts. apply Forall_app. split; [exact SO|]. repeat constructor; assumption. }
    destruct (SK _ _ VC) as (D & N). destruct (manifest_vod _ _ _ _ _ _ _ _ FO PN PC' VC D N) as (g1 & g2 & g3 & g4 & _). exact g4. }
  assert (GD2 : going_down c2 (py_int_of_Q t) down).
  { destruct GD as [NU|X Y b MU HX HY HT LB|X Y MU HX HY HT]; [apply gd_plain; exact NU|eapply gd_up_first; eassumption|eapply gd_down_first; eassumption]. }
  assert (F2 : st_files s (c_content_name c2) (c_rel_path c2) (source_file c2 n) ".m4s" = Ok (encs l)).
  { change (c_content_name c2) with (c_content_name c). rewrite CN. exact F. }
  destruct (C67_single_pf limit s r t sid history c2 (mkRep rp ct (m_timescale m)) n down l reply AD HR SK T0 PC2 MX NC MN eq_refl NS GD2 F2 OKL AP)
    as [Z|(_ & _ & _ & _ & out & BD & SE)]; [congruence|].
  exists out. split; [exact BD|exact SE].
Qed.

Lemma C71_announced_partial_pf : forall limit s sid history r0 r opts first name mfile t0 t c vc rp ct m n e src x pre period rest l reply down,
  same_session s r0 r opts first name mfile t0 c vc rp ct m n ->
  admitted limit r t -> hr_range r = None -> (0 <= t)%Q -> not_chunked c ->
  going_down c (py_int_of_Q t) down -> (forall Y, c_multi_url c <> ["u0_d" ++ print_Z Y]) ->
  (forall u k X Y, c_multi_url c = u :: k -> parse_updown u = Ok (("u"%char, X), ("d"%char, Y)) -> 0 <= X /\ 0 <= Y) ->
  (forall b, c_tsbd c = Some b -> 0 <= b) ->
  st_files s name rp (source_file c n) ".m4s" = Ok (encs l) -> segment_ok l -> Forall (fun b => btype b <> bstr "emsg") l ->
  x_kids src = (pre ++ period :: rest)%list -> x_tag period = "Period" ->
  Forall (fun y => x_tag y <> "Period") pre -> Forall (fun y => x_tag y <> "Period") rest ->
  get_mpd c e src (py_int_of_Q t0) = Ok x ->
  fst (application limit s r t sid (run limit s history [])) = Ok reply -> rp_status reply = 200 ->
  exists out, rp_body reply = [encs out] /\
    forall b, In b out -> btype b = bstr "emsg" ->
      (ct = "video" /\ 1 <= c_scte35 c <= 8 /\ (exists u, b = splice_box (c_scte35 c) (n * c_seg_dur c) u) /\ in_video x splice_scheme) \/
      (down = true /\ down_event (py_int_of_Q t) b /\ (c_stl_loss c = true -> py_int_of_Q t = py_int_of_Q t0 -> everywhere x loss_scheme)).
Proof.
  intros limit s sid history r0 r opts first name mfile t0 t c vc rp ct m n e src x pre period rest l reply down
    SS AD HR T0 NC GD UP Sn B F OKL NOE K TP NP NR G AP ST.
  destruct (session_sent limit s sid history r0 r opts first name mfile t0 t c vc rp ct m n l reply down SS AD HR T0 NC GD F OKL AP ST) as (out & BD & SE).
  exists out. split; [exact BD|]. intros b I E. destruct SS as [_ _ _ _ _ _ _ _ SK _ PC _ _ _ _].
  pose proof (C70_signals_pf s r0 t0 c e src x pre period rest SK PC Sn B K TP NP NR G) as SG.
  assert (SG' : forall P A, In P (children "Period" x) -> In A (children "AdaptationSet" P) ->
            exists before a, signalled c (py_int_of_Q t0) before a A).
  { intros P A IP IA. apply In_nth_error in IP. destruct IP as (i & NI'). destruct (F2_in _ _ _ _ (SG i P NI') IA) as (a & _ & S). eauto. }
  destruct (emsg_sent _ _ _ _ _ _ _ _ SE NOE I E) as [(V & N8 & u & BU)|(DT & DE)]; cbn [rep_type] in *.
  - left. split; [exact V|]. split; [exact N8|]. split; [exists u; exact BU|]. intros P A IP IA SV. destruct (SG' P A IP IA) as (bf & a & S).
    destruct (sg_events _ _ _ _ _ S) as (sp & lo & CH & S1 & _).
    assert (SVa : says_video a) by (unfold says_video, get in *; rewrite <- (sg_attrs _ _ _ _ _ S); exact SV).
    assert (SC : 0 < c_scte35 c) by (destruct N8; clear -H; lia).
    specialize (S1 (conj SVa SC)).
    destruct sp as [|y [|]]; try discriminate. exists y. split; [rewrite CH; left; reflexivity|]. cbn [map] in S1. unfold described in S1. congruence.
  - right. split; [exact DT|]. split; [exact DE|]. intros L TE P A IP IA. destruct (SG' P A IP IA) as (bf & a & S).
    destruct (sg_events _ _ _ _ _ S) as (sp & lo & CH & _ & _ & S3 & _).
    assert (LB : last_before_loss c (py_int_of_Q t0)).
    { split; [exact L|]. rewrite <- TE. subst down. inversion GD as [|X Y b' MU HX HY HT LB|]; subst.
      destruct (proj1 LB eq_refl) as (k & K0 & KE). exists ("u" ++ print_Z X ++ "_d" ++ print_Z Y), [], X, Y.
      split; [exact MU|]. split; [apply parse_two; try lia; discriminate|]. split; [|exists k; auto].
      destruct (Z.eq_dec X 0) as [->|]; [|lia]. exfalso. exact (UP Y MU). }
    specialize (S3 LB). destruct lo as [|y [|]]; try discriminate. exists y. split; [rewrite CH; apply in_app_iff; right; left; reflexivity|].
    cbn [map] in S3. unfold described in S3. congruence.
Qed.

(** The other way round: what is due is in the segment. *)
Lemma C71_sent_partial_pf : forall limit s sid history r0 r opts first name mfile t0 t c vc rp ct m n l reply down,
  same_session s r0 r opts first name mfile t0 c vc rp ct m n ->
  admitted limit r t -> hr_range r = None -> (0 <= t)%Q -> not_chunked c -> going_down c (py_int_of_Q t) down ->
  st_files s name rp (source_file c n) ".m4s" = Ok (encs l) -> segment_ok l -> (exists p, In (Leaf (bstr "styp") p) l) ->
  fst (application limit s r t sid (run limit s history [])) = Ok reply -> rp_status reply = 200 ->
  exists out, rp_body reply = [encs out] /\
    (down = true -> exists b, In b out /\ down_event (py_int_of_Q t) b) /\
    (ct = "video" -> 1 <= c_scte35 c <= 8 -> c_seg_dur c <= 100 -> forall u, splice (c_scte35 c) u -> 0 <= u -> u / 10 < 4294967296 ->
       u / 60 = n * c_seg_dur c / 60 -> touches (c_seg_dur c) n (u - 6) \/ touches (c_seg_dur c) n (u - 8) ->
       exists v, In (splice_box (c_scte35 c) (n * c_seg_dur c) v) out /\ splice (c_scte35 c) v).
Proof.
  intros limit s sid history r0 r opts first name mfile t0 t c vc rp ct m n l reply down SS AD HR T0 NC GD F OKL (p & Y) AP ST.
  destruct (session_sent limit s sid history r0 r opts first name mfile t0 t c vc rp ct m n l reply down SS AD HR T0 NC GD F OKL AP ST) as (out & BD & SE).
  exists out. split; [exact BD|]. destruct SE as (last & ev & e & sx & l1 & g & TC & INS & _ & DN & _ & _ & _ & EV). cbn [rep_type] in EV. split.
  - intros ->. destruct DN as (b & -> & DE). exists b. split; [|exact DE]. apply (inserted_in _ _ _ _ INS). left. left. reflexivity.
  - intros V N8 DL u SU U0 U9 UM UT. destruct (EV V) as ([-> |(_ & v & -> & SV & _)] & K); [exfalso; exact (K N8 DL u SU U0 U9 UM UT eq_refl)|].
    exists v. split; [|exact SV]. apply (inserted_in _ _ _ _ INS). right. apply (events_kept _ _ _ _ _ TC _ Y). left. reflexivity.
Qed.

(** *** Concrete cases *)
(** Sessions of testpic with their manifests: the last second before the server
    goes down, in a session with splices and continuous periods. *)
Definition sig_opts : list (string * string) :=
  [("segtimelineloss", "1"); ("baseurl", "u20_d10"); ("scte35", "1"); ("periods", "60"); ("continuous", "1"); ("tsbd", "30")].
Definition sig_cfg : config := Eval vm_compute in play_cfg sig_opts 200.
Definition sig_mpd : xml := Eval vm_compute in play_mpd sig_opts ex_source 200.
Example C70_signals_case :
  provider_config play_site (play_request sig_opts) 200 = Ok sig_cfg /\
  (forall u l X Y, c_multi_url sig_cfg = u :: l -> parse_updown u = Ok (("u"%char, X), ("d"%char, Y)) -> 0 <= X /\ 0 <= Y) /\
  (forall b, c_tsbd sig_cfg = Some b -> 0 <= b) /\
  get_mpd sig_cfg (play_env sig_opts) ex_source 200 = Ok sig_mpd /\ last_before_loss sig_cfg 200 /\
  map (fun P => (get "id" P, map (fun A => (map described (children "InbandEventStream" A), map described (children "SupplementalProperty" A)))
                               (children "AdaptationSet" P))) (children "Period" sig_mpd) =
    (let loss := (Some loss_scheme, Some "1") in let splices := (Some splice_scheme, Some "999") in
     let after := (Some continuity_scheme, Some "p2") in
     [(Some "p2", [([loss], []); ([splices; loss], [])]); (Some "p3", [([loss], [after]); ([splices; loss], [after])])]).
Proof.
  split; [vm_compute; reflexivity|].
  split. { intros u l X Y MU PU. vm_compute in MU. injection MU as <- <-. vm_compute in PU. injection PU as <- <-. lia. }
  split. { intros b H. vm_compute in H. injection H as <-. lia. }
  split; [vm_compute; reflexivity|].
  split. { split; [reflexivity|]. exists "u20_d10", [], 20, 10. split; [reflexivity|]. split; [vm_compute; reflexivity|]. split; [lia|]. exists 0. split; [lia|reflexivity]. }
  vm_compute. reflexivity.
Qed.
Definition seg_request (opts : list (string * string)) (rp : string) (n : Z) : http_request :=
  ex_request ("/livesim/" ++ join "/" (media_parts opts "testpic" rp (print_Z n ++ ".m4s"))) None.
Ltac session_tac :=
  constructor;
  [ repeat constructor
  | repeat constructor; unfold no_slash; vm_compute; intuition discriminate
  | split; [vm_compute; intuition discriminate|unfold no_slash; vm_compute; intuition discriminate]
  | unfold no_slash; vm_compute; intuition discriminate
  | unfold no_slash; vm_compute; intuition discriminate
  | unfold no_slash; vm_compute; intuition discriminate
  | repeat constructor; intros ? ? K; vm_compute in K; try discriminate; injection K as <- <-; vm_compute; intuition discriminate
  | reflexivity
  | exact play_site_ok
  | reflexivity
  | vm_compute; reflexivity
  | split; [reflexivity|discriminate]
  | split; [reflexivity|unfold no_slash; vm_compute; intuition discriminate]
  | lia
  | split; [vm_compute; reflexivity|split; [unfold no_slash; vm_compute; intuition discriminate|eexists; reflexivity]] ].
(** Segment 30 of that session (seconds 180 to 186) in V2 carries the splice at
    190 and, fetched at 200, the event of the loss. *)
Example C71_case :
  let r := seg_request sig_opts "V2" 30 in
  same_session play_site (play_request sig_opts) r sig_opts "livesim" "testpic" "Manifest.mpd" 200 sig_cfg ex_vod "V2" "video" play_media 30 /\
  admitted 0 r 200 /\ not_chunked sig_cfg /\ going_down sig_cfg 200 true /\ (forall Y, c_multi_url sig_cfg <> ["u0_d" ++ print_Z Y]) /\
  st_files play_site "testpic" "V2" (source_file sig_cfg 30) ".m4s" = Ok (encs ex_l) /\ segment_ok ex_l /\
  Forall (fun b => btype b <> bstr "emsg") ex_l /\ (exists p, In (Leaf (bstr "styp") p) ex_l) /\
  splice (c_scte35 sig_cfg) 190 /\ touches (c_seg_dur sig_cfg) 30 (190 - 6) /\
  exists reply, fst (application 0 play_site r 200 "" (run 0 play_site [] [])) = Ok reply /\ rp_status reply = 200.
Proof.
  cbn zeta. split; [session_tac|]. split; [left; reflexivity|]. split; [intros q Q; discriminate|].
  split; [apply (gd_up_first _ _ 20 10); [reflexivity|lia|lia|lia|]; split; [intros _; exists 0; split; [lia|reflexivity]|reflexivity]|].
  split; [intros Y H; vm_compute in H; discriminate|].
  split; [reflexivity|]. split; [exact ex_l_ok|]. split; [repeat constructor; vm_compute; discriminate|].
  split; [eexists; left; reflexivity|].
  split; [vm_compute; auto|]. split; [split; vm_compute; discriminate|].
  eexists. split; vm_compute; reflexivity.
Qed.

(** *** Refuted *)
(** The event of the loss without its announcement: the server sends it in every
    session with baseurl_uX_dY (dash_proxy.py 160-177), the manifest announces it
    only with segtimelineloss_1 (mpd_proxy.py 36-54). *)
Definition silent (x : xml) : Prop := forall P A, In P (children "Period" x) -> In A (children "AdaptationSet" P) -> children "InbandEventStream" A = [].
Lemma silent_easy : forall x,
  forallb (fun P => forallb (fun A => match children "InbandEventStream" A with [] => true | _ => false end) (children "AdaptationSet" P)) (children "Period" x) = true ->
  silent x.
Proof.
  intros x H P A IP IA. rewrite forallb_forall in H. specialize (H P IP). rewrite forallb_forall in H. specialize (H A IA).
  destruct (children "InbandEventStream" A); [reflexivity|discriminate].
Qed.
Definition loss_opts : list (string * string) := [("baseurl", "u20_d10")].
Definition loss_cfg : config := Eval vm_compute in play_cfg loss_opts 200.
Definition loss_mpd : xml := Eval vm_compute in play_mpd loss_opts ex_source 200.
Lemma C71_unannounced_loss_refuted_pf : exists s r0 r opts first name mfile t c vc rp ct m n e src x reply out b,
  same_session s r0 r opts first name mfile t c vc rp ct m n /\ get_mpd c e src (py_int_of_Q t) = Ok x /\
  fst (application 0 s r t "" (run 0 s [] [])) = Ok reply /\ rp_status reply = 200 /\ rp_body reply = [encs out] /\
  In b out /\ btype b = bstr "emsg" /\ silent x.
Proof.
  set (r := seg_request loss_opts "V2" 30).
  assert (SS : same_session play_site (play_request loss_opts) r loss_opts "livesim" "testpic" "Manifest.mpd" 200 loss_cfg ex_vod "V2" "video" play_media 30) by session_tac.
  destruct (fst (application 0 play_site r 200 "" (run 0 play_site [] []))) as [reply|err] eqn:AP; [|vm_compute in AP; discriminate].
  assert (ST : rp_status reply = 200) by (vm_compute in AP; injection AP as <-; reflexivity).
  assert (GD : going_down loss_cfg (py_int_of_Q 200) true).
  { apply (gd_up_first _ _ 20 10); [reflexivity|lia|lia|lia|]. split; [intros _; exists 0; split; [lia|reflexivity]|reflexivity]. }
  destruct (C71_sent_partial_pf 0 play_site "" [] (play_request loss_opts) r loss_opts "livesim" "testpic" "Manifest.mpd" 200 200 loss_cfg ex_vod "V2" "video" play_media 30 ex_l reply true
    SS (or_introl eq_refl) eq_refl ltac:(discriminate) ltac:(intros q Q; discriminate) GD eq_refl ex_l_ok (ex_intro _ _ (or_introl eq_refl)) AP ST) as (out & BD & DN & _).
  destruct (DN eq_refl) as (b & IB & DE).
  exists play_site, (play_request loss_opts), r, loss_opts, "livesim", "testpic", "Manifest.mpd", 200%Q, loss_cfg, ex_vod, "V2", "video", play_media, 30, (play_env loss_opts), ex_source, loss_mpd, reply, out, b.
  split; [exact SS|]. split; [vm_compute; reflexivity|]. split; [exact AP|]. split; [exact ST|]. split; [exact BD|]. split; [exact IB|].
  split; [destruct DE as (? & ? & ? & ? & ? & ? & ? & -> & _); reflexivity|]. apply silent_easy. vm_compute. reflexivity.
Qed.

(** The announcement is only in manifests fetched in the very second of the
    loss: one fetched a second before has none (mpd_proxy.py 45-54). *)
Definition early_cfg : config := Eval vm_compute in play_cfg sig_opts 199.
Definition early_mpd : xml := Eval vm_compute in play_mpd sig_opts ex_source 199.
Lemma C71_late_refuted_pf : exists s r0 r opts first name mfile t0 t c vc rp ct m n e src x reply out b,
  same_session s r0 r opts first name mfile t0 c vc rp ct m n /\ c_stl_loss c = true /\ get_mpd c e src (py_int_of_Q t0) = Ok x /\ (t == t0 + 1)%Q /\
  fst (application 0 s r t "" (run 0 s [] [])) = Ok reply /\ rp_status reply = 200 /\ rp_body reply = [encs out] /\
  In b out /\ down_event (py_int_of_Q t) b /\
  forall P A, In P (children "Period" x) -> In A (children "AdaptationSet" P) -> ~ announces loss_scheme A.
Proof.
  set (r := seg_request sig_opts "V2" 30).
  assert (SS : same_session play_site (play_request sig_opts) r sig_opts "livesim" "testpic" "Manifest.mpd" 199 early_cfg ex_vod "V2" "video" play_media 30) by session_tac.
  destruct (fst (application 0 play_site r 200 "" (run 0 play_site [] []))) as [reply|err] eqn:AP; [|vm_compute in AP; discriminate].
  assert (ST : rp_status reply = 200) by (vm_compute in AP; injection AP as <-; reflexivity).
  assert (GD : going_down early_cfg (py_int_of_Q 200) true).
  { apply (gd_up_first _ _ 20 10); [reflexivity|lia|lia|lia|]. split; [intros _; exists 0; split; [lia|reflexivity]|reflexivity]. }
  destruct (C71_sent_partial_pf 0 play_site "" [] (play_request sig_opts) r sig_opts "livesim" "testpic" "Manifest.mpd" 199 200 early_cfg ex_vod "V2" "video" play_media 30 ex_l reply true
    SS (or_introl eq_refl) eq_refl ltac:(discriminate) ltac:(intros q Q; discriminate) GD eq_refl ex_l_ok (ex_intro _ _ (or_introl eq_refl)) AP ST) as (out & BD & DN & _).
  destruct (DN eq_refl) as (b & IB & DE).
  exists play_site, (play_request sig_opts), r, sig_opts, "livesim", "testpic", "Manifest.mpd", 199%Q, 200%Q, early_cfg, ex_vod, "V2", "video", play_media, 30, (play_env sig_opts), ex_source, early_mpd, reply, out, b.
  split; [exact SS|]. split; [reflexivity|]. split; [vm_compute; reflexivity|]. split; [reflexivity|]. split; [exact AP|]. split; [exact ST|]. split; [exact BD|]. split; [exact IB|].
  split; [exact DE|].
  assert (K : forallb (fun P => forallb (fun A => forallb (fun y => match get "schemeIdUri" y with Some u => negb (String.eqb u loss_scheme) | None => true end) (children "InbandEventStream" A)) (children "AdaptationSet" P)) (children "Period" early_mpd) = true) by (vm_compute; reflexivity).
  intros P A IP IA (y & IY & U). rewrite forallb_forall in K. specialize (K P IP). rewrite forallb_forall in K. specialize (K A IA). rewrite forallb_forall in K. specialize (K y IY).
  rewrite U in K. vm_compute in K. discriminate.
Qed.

(** Splices in video whose set has no contentType attribute (mimeType
    video/mp4 alone; mpdprocessor.py 344-350 reads the attribute, dash_proxy.py 312
    the asset description). *)
Definition untyped (x : xml) : xml :=
  let strip_set a := Elem (x_tag a) (filter (fun kv => negb (String.eqb (fst kv) "contentType")) (x_attrs a)) (x_text a) (x_kids a) in
  Elem (x_tag x) (x_attrs x) (x_text x)
    (map (fun p => if String.eqb (x_tag p) "Period" then Elem (x_tag p) (x_attrs p) (x_text p) (map strip_set (x_kids p)) else p) (x_kids x)).
Definition ad_opts : list (string * string) := [("scte35", "1")].
Definition ad_cfg : config := Eval vm_compute in play_cfg ad_opts 200.
Definition ad_mpd : xml := Eval vm_compute in play_mpd ad_opts (untyped ex_source) 200.
Lemma C71_content_type_refuted_pf : exists s r0 r opts first name mfile t c vc rp ct m n e src x reply out b u,
  same_session s r0 r opts first name mfile t c vc rp ct m n /\ get_mpd c e src (py_int_of_Q t) = Ok x /\
  fst (application 0 s r t "" (run 0 s [] [])) = Ok reply /\ rp_status reply = 200 /\ rp_body reply = [encs out] /\
  In b out /\ b = splice_box (c_scte35 c) (n * c_seg_dur c) u /\ silent x.
Proof.
  set (r := seg_request ad_opts "V2" 30).
  assert (SS : same_session play_site (play_request ad_opts) r ad_opts "livesim" "testpic" "Manifest.mpd" 200 ad_cfg ex_vod "V2" "video" play_media 30) by session_tac.
  destruct (fst (application 0 play_site r 200 "" (run 0 play_site [] []))) as [reply|err] eqn:AP; [|vm_compute in AP; discriminate].
  assert (ST : rp_status reply = 200) by (vm_compute in AP; injection AP as <-; reflexivity).
  assert (GD : going_down ad_cfg (py_int_of_Q 200) false) by (apply gd_plain; discriminate).
  destruct (C71_sent_partial_pf 0 play_site "" [] (play_request ad_opts) r ad_opts "livesim" "testpic" "Manifest.mpd" 200 200 ad_cfg ex_vod "V2" "video" play_media 30 ex_l reply false
    SS (or_introl eq_refl) eq_refl ltac:(discriminate) ltac:(intros q Q; discriminate) GD eq_refl ex_l_ok (ex_intro _ _ (or_introl eq_refl)) AP ST) as (out & BD & _ & SP).
  destruct (SP eq_refl ltac:(vm_compute; split; discriminate) ltac:(vm_compute; discriminate) 190 ltac:(left; reflexivity) ltac:(lia) ltac:(vm_compute; reflexivity) eq_refl
    ltac:(left; split; vm_compute; discriminate)) as (v & IB & _).
  exists play_site, (play_request ad_opts), r, ad_opts, "livesim", "testpic", "Manifest.mpd", 200%Q, ad_cfg, ex_vod, "V2", "video", play_media, 30, (play_env ad_opts), (untyped ex_source), ad_mpd, reply, out.
  exists (splice_box (c_scte35 ad_cfg) (30 * c_seg_dur ad_cfg) v), v.
  split; [exact SS|]. split; [vm_compute; reflexivity|]. split; [exact AP|]. split; [exact ST|]. split; [exact BD|]. split; [exact IB|].
  split; [reflexivity|]. apply silent_easy. vm_compute. reflexivity.
Qed.

(** Announced and never sent: any other number of splices a minute than 1 to 8
    (mpd_proxy.py 90, mediasegmentfilter.py 352); the option is not checked. *)
Definition nine_opts : list (string * string) := [("scte35", "9")].
Definition nine_cfg : config := Eval vm_compute in play_cfg nine_opts 200.
Definition nine_mpd : xml := Eval vm_compute in play_mpd nine_opts ex_source 200.
Lemma C71_unused_refuted_pf : exists s r0 opts first name mfile t0 c vc e src x,
  provider_config s r0 t0 = Ok c /\ get_mpd c e src (py_int_of_Q t0) = Ok x /\
  (exists P A, In P (children "Period" x) /\ In A (children "AdaptationSet" P) /\ announces splice_scheme A) /\
  forall limit sid history r rp ct m n t l reply,
    same_session s r0 r opts first name mfile t0 c vc rp ct m n -> admitted limit r t -> hr_range r = None -> (0 <= t)%Q ->
    st_files s name rp (source_file c n) ".m4s" = Ok (encs l) -> segment_ok l -> Forall (fun b => btype b <> bstr "emsg") l ->
    fst (application limit s r t sid (run limit s history [])) = Ok reply -> rp_status reply = 200 ->
    exists out, rp_body reply = [encs out] /\ Forall (fun b => btype b <> bstr "emsg") out.
Proof.
  exists play_site, (play_request nine_opts), nine_opts, "livesim", "testpic", "Manifest.mpd", 200%Q, nine_cfg, ex_vod, (play_env nine_opts), ex_source, nine_mpd.
  split; [vm_compute; reflexivity|]. split; [vm_compute; reflexivity|].
  split. { do 2 eexists. split; [left; reflexivity|]. split; [right; left; reflexivity|]. eexists. split; [left; reflexivity|reflexivity]. }
  intros limit sid history r rp ct m n t l reply SS AD HR T0 F OK NOE AP ST.
  assert (GD : going_down nine_cfg (py_int_of_Q t) false) by (apply gd_plain; discriminate).
  destruct (session_sent limit play_site sid history _ r _ _ _ _ _ t nine_cfg _ rp ct m n l reply false SS AD HR T0 ltac:(intros q Q; discriminate) GD F OK AP ST) as (out & BD & SE).
  exists out. split; [exact BD|]. apply Forall_forall. intros b I E.
  destruct (emsg_sent _ _ _ _ _ _ _ _ SE NOE I E) as [(_ & N8 & _)|(N & _)]; [|discriminate]. vm_compute in N8. destruct N8 as (_ & N8). apply N8. reflexivity.
Qed.
