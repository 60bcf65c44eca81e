(** The tree of the live manifest: its periods (C62, C56), its URLs (C63, C64)
    and its location (C65). *)
From Coq Require Import Lqa ZifyBool ZifyNat.
From Verif Require Import Base BaseProofs ConfigModel ProxyModel ProxySpec ProxyProofs ProxyTheory Proxy2Theory ConfigProofs ConfigTheory
  SessionProofs ClockProofs TimeModel StrModel TimelineModel PeriodModel PeriodSpec PeriodTheory MpdModel MpdSpec MpdProofs MpdTheory
  Mpd2Spec Mpd2Proofs.
Open Scope Z_scope.

(** ** C62: one Period per period of the schedule, everything else as in the
    source.  Full statement: also for SegmentTimeline addressing; here number
    addressing, sources with one Period and no loss schedule. *)
Lemma C62_periods_partial_pf : forall c e src now x progs period rest sn mup ps,
  x_kids src = (progs ++ period :: rest)%list ->
  Forall (fun y => x_tag y = "ProgramInformation"%string) progs -> x_tag period = "Period"%string ->
  Forall (fun y => x_tag y <> "Period"%string) rest ->
  c_stl_loss c = false \/ c_multi_url c = [] -> c_segtl c = false -> c_segtlnr c = false ->
  get_mpd c e src now = Ok x ->
  adjusted_start_number c = Ok sn -> generate_period_data c sn (adjusted_pto c 0 1) now = Ok (mup, ps) -> ps <> [] ->
  Forall2 (fun p P => period_for c p period P) ps (children "Period" x) /\
  (forall t, ~ In t ["Period"; "BaseURL"; "Location"; "ServiceDescription"; "UTCTiming"]%string -> children t x = children t src).
Proof.
  intros c e src now x progs period rest sn mup ps K FP TP NR L S1 S2 G SN GP NE.
  apply get_mpd_plain in G; [|exact L].
  destruct (generate_inv _ _ _ _ _ _ G) as (d & _ & _ & _ & _ & _ & D & _).
  destruct (children_of _ _ _ _ _ _ _ _ _ _ _ _ _ K FP TP NR G D SN GP NE) as (urls & cb & _ & _ & F & O).
  split; [|exact O]. eapply Forall2_impl; [|exact F]. cbv beta. intros p P (id & g & g' & U & N).
  assert (g = None) by (destruct N as [(_ & N)|(h & N & _)]; [exact N|rewrite S1, S2 in N; discriminate N]). subst g.
  exact (period_number _ _ _ _ _ _ TP U).
Qed.
Example ex_C62 :
  match ex_live ["periods_60"]%string 1000 with
  | Ok x => map (fun P => (get "id" P, get "start" P, get "duration" P,
              map (fun A => map (get "startNumber") (children "SegmentTemplate" A)) (children "AdaptationSet" P))) (children "Period" x)
  | Err _ => []
  end =
  (let T n := [[Some n]; [Some n]] in
   [(Some "p11", Some "PT660S", None, T "110"); (Some "p12", Some "PT720S", None, T "120");
    (Some "p13", Some "PT780S", None, T "130"); (Some "p14", Some "PT840S", None, T "140");
    (Some "p15", Some "PT900S", None, T "150"); (Some "p16", Some "PT960S", None, T "160");
    (Some "p17", Some "PT1020S", None, T "170")])%string.
Proof. vm_compute. reflexivity. Qed.

(** The attributes of the root. *)
Lemma C62_attributes_pf : forall c e src now x,
  c_stl_loss c = false \/ c_multi_url c = [] -> get_mpd c e src now = Ok x ->
  get "availabilityStartTime" x = Some (make_timestamp (c_ast c)) /\
  get "publishTime" x = Some (make_timestamp now) /\
  (c_mpdur c = None -> get "mediaPresentationDuration" x = None) /\
  (forall b, c_tsbd c = Some b -> c_mpdur c = None -> ~ ended c now -> get "timeShiftBufferDepth" x = Some (seconds_to_iso_duration b)) /\
  (forall s, c_spd c = Some s -> get "suggestedPresentationDelay" x = Some (seconds_to_iso_duration s)).
Proof.
  intros c e src now x L G. apply get_mpd_plain in G; [|exact L].
  destruct (generate_inv _ _ _ _ _ _ G) as (d & sn & mup & ps & root & kids & D & _ & _ & R & _ & ->).
  rewrite !get_set_kids. destruct (process_mpd_times _ _ _ _ _ _ R) as (A & B & C & E & F & _).
  rewrite A, B, C, E, F. pose proof (mpd_data_static _ _ _ D) as ST.
  unfold mpd_data_of in D. destruct (c_tsbd c) as [b|] eqn:T; [|discriminate]. injection D as <-. cbn [md_ast md_mpdur md_tsbd md_spd md_static] in *.
  repeat split.
  - intros ->. reflexivity.
  - intros b0 E0 -> NE. injection E0 as <-. cbn [option_map]. rewrite orb_false_r.
    match goal with |- (if ?b then _ else _) = _ => destruct b eqn:Q end; [exfalso; apply NE, ST; reflexivity|reflexivity].
  - intros s ->. reflexivity.
Qed.
Example ex_C62_attributes : let a := ex_attr ["start_600"; "spd_10"; "tsbd_90"]%string 1000 in
  (a "availabilityStartTime", a "publishTime", a "mediaPresentationDuration", a "timeShiftBufferDepth", a "suggestedPresentationDelay")%string =
  (Some "1970-01-01T00:10:00Z", Some "1970-01-01T00:16:40Z", None, Some "PT1M30S", Some "PT10S")%string.
Proof. vm_compute. reflexivity. Qed.

(** ** C56, read off the manifest: the number and the start a client finds in
    any SegmentTemplate of a single-period manifest. *)
Definition client_number (T : xml) : result Z := match get "startNumber" T with None => Ok 1 | Some s => py_int s end.
Lemma C56_manifest_partial_pf : forall read base opts name mfile rp v ct m c now b e src progs period rest x,
  Forall (fun kv => str_in (fst kv) url_cfg_keys = true) opts -> plain_name name ->
  process_url read base (manifest_parts opts name mfile) now = Ok c ->
  read name = Ok v -> split_dunder rp = [rp] -> content_type_for_rep (v_media v) rp = Some (ct, m) ->
  wf_cfg c -> c_pph c = -1 -> c_insert_ad c <= 0 -> (forall u, c_multi_url c <> [u]) ->
  c_ato c = Some 0%Q -> c_tsbd c = Some b -> 0 <= b ->
  c_stop_time c = None -> c_last_nrs c = [] -> c_aet c = None ->
  (c_timeoffset c = None \/ (c_start_nr c <> -1 /\ first_nr c <> -1)) ->
  c_stl_loss c = false -> c_segtl c = false -> c_segtlnr c = false ->
  x_kids src = (progs ++ period :: rest)%list ->
  Forall (fun y => x_tag y = "ProgramInformation"%string) progs -> x_tag period = "Period"%string ->
  Forall (fun y => x_tag y <> "Period"%string) rest ->
  get_mpd c e src now = Ok x ->
  exists P, children "Period" x = [P] /\ get "start" P = Some "PT0S"%string /\
  forall A T s, In A (children "AdaptationSet" P) -> In T (children "SegmentTemplate" A) -> client_number T = Ok s ->
    let d := c_seg_dur c in
    let latest := (now - c_ast c) / d + s - 1 in
    let served n := exists sv, request read base (media_parts opts name rp (print_nat n ++ ".m4s")) (inject_Z now) = Ok (Serve sv) in
    (forall n, 0 <= n -> s <= n <= latest -> now - b <= c_ast c + (n - s + 1) * d -> served n) /\
    (0 <= latest + 1 -> ~ served (latest + 1)).
Proof.
  intros read base opts name mfile rp v ct m c now b e src progs period rest x
    FO PN PU RD SD CT WF PP IA MU ATO TS B0 STP LN AET TOF SL SG SGN K FP TP NR G.
  destruct (C56_single_period_partial_pf read base opts name mfile rp v ct m c now b FO PN PU RD SD CT WF PP IA MU ATO TS B0 STP LN AET TOF)
    as (k & p & SN & GP & PS & W).
  destruct (C62_periods_partial_pf c e src now x progs period rest k None [p] K FP TP NR ltac:(auto) SG SGN G SN GP ltac:(discriminate)) as (F & _).
  assert (Ep : pd_start p = "PT0S"%string /\ pd_start_s p = 0).
  { clear - GP PP IA WF. unfold generate_period_data in GP. rewrite PP in GP. change (Z.min (-1) 60) with (-1) in GP.
    change (negb (count_allowed (-1))) with false in GP. cbv iota in GP.
    replace (0 <? c_insert_ad c) with false in GP by lia. cbn [bind] in GP. change (-1 =? -1) with true in GP. cbv iota in GP.
    apply bind_inv in GP. destruct GP as (q & _ & GP). injection GP as <-. auto. }
  destruct Ep as (E1 & E2).
  inversion F as [|? P ? Ps PF F' EP EQ]; subst. inversion F'; subst. exists P. split; [reflexivity|].
  split; [rewrite (pf_start _ _ _ _ PF), E1; reflexivity|].
  intros A T s IA' IT CN.
  assert (SE : s = effective_number k).
  { assert (exists a, adaptation_for c p a A).
    { clear - PF IA'. pose proof (pf_sets _ _ _ _ PF) as Q. revert IA'. induction Q; intros I; [contradiction|]. destruct I as [->|I]; eauto. }
    destruct H as (a & PA). assert (exists t, template_for c p t T).
    { clear - PA IT. pose proof (af_templates _ _ _ _ PA) as Q. revert IT. induction Q; intros I; [contradiction|]. destruct I as [->|I]; eauto. }
    destruct H as (t & PT). unfold client_number in CN. rewrite (tf_number _ _ _ _ PT), PS in CN. unfold effective_number.
    destruct (String.eqb_spec (print_Z k) "-1") as [Q|Q].
    - change "-1"%string with (print_Z (-1)) in Q. apply print_Z_inj in Q. subst k. injection CN as <-. reflexivity.
    - rewrite py_int_print in CN. injection CN as <-. destruct (Z.eqb_spec k (-1)) as [->|]; [exfalso; apply Q; reflexivity|reflexivity]. }
  cbv zeta in *. rewrite SE. rewrite E2, Z.sub_0_r in W. exact W.
Qed.
Example ex_C56_manifest : match ex_live ["snr_7"; "start_600"]%string 1000 with
  | Ok x => map (fun P => map (fun A => map client_number (children "SegmentTemplate" A)) (children "AdaptationSet" P)) (children "Period" x)
  | Err _ => [] end = [[[Ok 7]; [Ok 7]]].
Proof. vm_compute. reflexivity. Qed.

(** ** C63: the BaseURL leads back to the same session. *)
Lemma C63_base_url_pf : forall read base bparts opts name mfile now c e src progs period rest sn mup p ps x,
  Forall (fun kv => str_in (fst kv) url_cfg_keys = true) opts -> plain_name name ->
  base = (join "/" bparts ++ "/")%string -> bparts <> [] -> Forall no_slash bparts ->
  Forall no_slash (map opt_text opts) -> no_slash name ->
  process_url read base (manifest_parts opts name mfile) now = Ok c ->
  x_kids src = (progs ++ period :: rest)%list ->
  Forall (fun y => x_tag y = "ProgramInformation"%string) progs -> x_tag period = "Period"%string ->
  Forall (fun y => ~ In (x_tag y) ["Period"; "BaseURL"]%string) rest ->
  c_multi_url c = [] -> c_add_loc c = false ->
  get_mpd c e src now = Ok x ->
  adjusted_start_number c = Ok sn -> generate_period_data c sn (adjusted_pto c 0 1) now = Ok (mup, p :: ps) ->
  exists b, children "BaseURL" x = [b] /\
  forall rp file, no_slash rp -> no_slash file ->
    (* what a client requests, and the server takes apart *)
    split_all "/" (x_text b ++ rp ++ "/" ++ file) = (bparts ++ media_parts opts name rp file)%list /\
    (forall v ct m, read name = Ok v -> split_dunder rp = [rp] -> content_type_for_rep (v_media v) rp = Some (ct, m) ->
     process_url read base (media_parts opts name rp file) now = Ok (refile rp file [mkRep rp ct (m_timescale m)] c)).
Proof.
  intros read base bparts opts name mfile now c e src progs period rest sn mup p ps x
    FO PN EB NB SB SO SN_ PU K FP TP NR MU AL G SN GP.
  assert (NRP : none "Period"%string rest) by (eapply Forall_impl; [|exact NR]; cbv beta; cbn [In]; intros y Y E; apply Y; auto).
  apply get_mpd_plain in G; [|right; exact MU].
  destruct (generate_inv _ _ _ _ _ _ G) as (d & _ & _ & _ & _ & _ & D & _).
  destruct (children_of _ _ _ _ _ _ _ _ _ _ _ _ _ K FP TP NRP G D SN GP ltac:(discriminate)) as (urls & cb & U & BU & _ & _).
  unfold url_elems in U. rewrite AL, MU in U. cbn [bind map] in U. injection U as <-.
  specialize (BU "BaseURL"%string ltac:(auto)).
  rewrite (filter_none' "BaseURL" rest) in BU by (eapply Forall_impl; [|exact NR]; cbv beta; cbn [In]; intros y Y E; apply Y; auto).
  cbn [filter] in BU. change (has_tag "BaseURL" (baseurl_elem d (c_base_url c))) with true in BU. cbn iota in BU. cbn [app] in BU.
  eexists. split; [exact BU|]. intros rp file Nr Nf. split.
  - cbn [x_text baseurl_elem]. rewrite (manifest_base _ _ _ _ _ _ _ FO PN PU), EB.
    rewrite <- (split_join (bparts ++ media_parts opts name rp file)).
    + f_equal. unfold media_parts. rewrite (join_app bparts (map opt_text opts ++ [name; rp; file])%list); [|exact NB|destruct (map opt_text opts); discriminate].
      replace (map opt_text opts ++ [name; rp; file])%list with ((map opt_text opts ++ [name]) ++ [rp; file])%list
        by (rewrite <- app_assoc; reflexivity).
      rewrite (join_app (map opt_text opts ++ [name])%list [rp; file]); [|destruct (map opt_text opts); discriminate|discriminate].
      rewrite !string_app_assoc. reflexivity.
    + destruct bparts; [contradiction|discriminate].
    + apply Forall_app. split; [exact SB|]. unfold media_parts. apply Forall_app. split; [exact SO|]. repeat constructor; assumption.
  - intros v ct m RD SD CT. exact (session_same read base opts name mfile rp file now c v ct m FO PN PU RD SD CT).
Qed.
(** The same for a source that has a BaseURL of its own, which is replaced
    (whatever baseurl options there are). *)
Lemma C63_source_base_pf : forall read base bparts opts name mfile now c e src progs b0 period rest x,
  Forall (fun kv => str_in (fst kv) url_cfg_keys = true) opts -> plain_name name ->
  base = (join "/" bparts ++ "/")%string -> bparts <> [] -> Forall no_slash bparts ->
  Forall no_slash (map opt_text opts) -> no_slash name ->
  process_url read base (manifest_parts opts name mfile) now = Ok c ->
  x_kids src = (progs ++ b0 :: period :: rest)%list ->
  Forall (fun y => x_tag y = "ProgramInformation"%string) progs -> x_tag b0 = "BaseURL"%string -> x_tag period = "Period"%string ->
  Forall (fun y => x_tag y <> "BaseURL"%string) rest ->
  c_stl_loss c = false \/ c_multi_url c = [] -> c_add_loc c = false ->
  get_mpd c e src now = Ok x ->
  exists b, children "BaseURL" x = [b] /\
  forall rp file, no_slash rp -> no_slash file ->
    split_all "/" (x_text b ++ rp ++ "/" ++ file) = (bparts ++ media_parts opts name rp file)%list /\
    (forall v ct m, read name = Ok v -> split_dunder rp = [rp] -> content_type_for_rep (v_media v) rp = Some (ct, m) ->
     process_url read base (media_parts opts name rp file) now = Ok (refile rp file [mkRep rp ct (m_timescale m)] c)).
Proof.
  intros read base bparts opts name mfile now c e src progs b0 period rest x FO PN EB NB SB SO SN_ PU K FP TB TP NR MU AL G.
  apply get_mpd_plain in G; [|exact MU].
  destruct (generate_inv _ _ _ _ _ _ G) as (d & sn & mup & ps & root & kids & D & _ & _ & _ & H & ->). rewrite K in H.
  apply source_base in H; try assumption. unfold children. rewrite kids_set_kids. change (fun y => String.eqb (x_tag y) "BaseURL") with (has_tag "BaseURL").
  rewrite H. eexists. split; [reflexivity|]. intros rp file Nr Nf. split.
  - cbn [x_text]. rewrite (manifest_base _ _ _ _ _ _ _ FO PN PU), EB.
    rewrite <- (split_join (bparts ++ media_parts opts name rp file)).
    + f_equal. unfold media_parts. rewrite (join_app bparts (map opt_text opts ++ [name; rp; file])%list); [|exact NB|destruct (map opt_text opts); discriminate].
      replace (map opt_text opts ++ [name; rp; file])%list with ((map opt_text opts ++ [name]) ++ [rp; file])%list
        by (rewrite <- app_assoc; reflexivity).
      rewrite (join_app (map opt_text opts ++ [name])%list [rp; file]); [|destruct (map opt_text opts); discriminate|discriminate].
      rewrite !string_app_assoc. reflexivity.
    + destruct bparts; [contradiction|discriminate].
    + apply Forall_app. split; [exact SB|]. unfold media_parts. apply Forall_app. split; [exact SO|]. repeat constructor; assumption.
  - intros v ct m RD SD CT. exact (session_same read base opts name mfile rp file now c v ct m FO PN PU RD SD CT).
Qed.
Example ex_C63_source :
  let src := Elem "MPD" (x_attrs ex_source) "" (insert_at 1 (Elem "BaseURL" [] "http://elsewhere/" []) (x_kids ex_source)) in
  match get_mpd (ex_mpd ["snr_7"]%string 1000) (ex_env ["snr_7"]%string) src 1000 with
  | Ok x => map (fun b => split_all "/" (x_text b ++ "V1/66.m4s")) (children "BaseURL" x)
  | Err _ => [] end = [["http:"; ""; "h"; "livesim"; "snr_7"; "testpic"; "V1"; "66.m4s"]]%string.
Proof. vm_compute. reflexivity. Qed.
Example ex_C63 : match ex_live ["snr_7"; "start_600"]%string 1000 with
  | Ok x => map (fun b => split_all "/" (x_text b ++ "V1/66.m4s")) (children "BaseURL" x)
  | Err _ => [] end = [["http:"; ""; "h"; "livesim"; "snr_7"; "start_600"; "testpic"; "V1"; "66.m4s"]]%string.
Proof. vm_compute. reflexivity. Qed.

(** ** C64: with several base URLs none of them leads to the content.  The
    options are blanked instead of removed, and the option of the URL is put
    after the content name. *)
Definition ex_two : list string := ["baseurl_u40_d20"; "baseurl_d40_u20"]%string.
Lemma C64_base_urls_refuted_pf : exists c e src now x urls,
  ex_cfg (List.app ex_two ["testpic"; "Manifest.mpd"]%string) now = Ok c /\
  get_mpd c e src now = Ok x /\ children "BaseURL" x = urls /\ List.length urls = 2%nat /\
  (exists sv, ex_get (List.app ex_two ["testpic"; "V1"; "165.m4s"]%string) (inject_Z now) = Ok (Serve sv)) /\
  forall u, In u urls -> exists parts,
    split_all "/" (x_text u ++ "V1/165.m4s") = (["http:"; ""; "h"; "livesim"] ++ parts)%list%string /\
    ex_get parts (inject_Z now) = Err "NoSectionError"%string.
Proof.
  set (c := ex_mpd ex_two 1000).
  assert (C : ex_cfg (List.app ex_two ["testpic"; "Manifest.mpd"]%string) 1000 = Ok c) by (vm_compute; reflexivity).
  destruct (get_mpd c (ex_env ex_two) ex_source 1000) as [x|] eqn:G; [|vm_compute in G; discriminate].
  assert (B : map x_text (children "BaseURL" x) =
    ["http://h/livesim///testpic/baseurl_u40_d20//"; "http://h/livesim///testpic/baseurl_d40_u20//"]%string).
  { assert (Q : (match get_mpd c (ex_env ex_two) ex_source 1000 with Ok y => map x_text (children "BaseURL" y) | Err _ => [] end) =
      ["http://h/livesim///testpic/baseurl_u40_d20//"; "http://h/livesim///testpic/baseurl_d40_u20//"]%string) by (vm_compute; reflexivity).
    rewrite G in Q. exact Q. }
  assert (S : exists sv, ex_get (List.app ex_two ["testpic"; "V1"; "165.m4s"]%string) (inject_Z 1000) = Ok (Serve sv))
    by (vm_compute; eexists; reflexivity).
  exists c, (ex_env ex_two), ex_source, 1000, x, (children "BaseURL" x).
  split; [exact C|]. split; [exact G|]. split; [reflexivity|].
  split; [rewrite <- (map_length x_text), B; reflexivity|]. split; [exact S|].
  intros u I. apply (in_map x_text) in I. rewrite B in I. cbn [In] in I.
  destruct I as [I|[I|[]]]; rewrite <- I.
  - exists ["" ; ""; "testpic"; "baseurl_u40_d20"; ""; "V1"; "165.m4s"]%string. split; [reflexivity|vm_compute; reflexivity].
  - exists ["" ; ""; "testpic"; "baseurl_d40_u20"; ""; "V1"; "165.m4s"]%string. split; [reflexivity|vm_compute; reflexivity].
Qed.

(** ** C65: a session with times relative to the request.  The manifest names
    its own URL with the times written out. *)
Lemma C65_location_pf : forall c e src now x progs period rest sn mup p ps b0 bparts opts name file a b,
  me_full_url e = join "/" (b0 :: bparts ++ manifest_parts opts name file)%list ->
  c_start_time c = Some a -> c_stop_time c = Some b -> c_add_loc c = true ->
  no_slash b0 -> Forall no_slash bparts -> Forall plain_name bparts ->
  Forall (fun kv => str_in (fst kv) url_cfg_keys = true) opts -> Forall canonical opts -> Forall no_slash (map opt_text opts) ->
  plain_name name -> no_slash name -> plain_name file -> no_slash file ->
  x_kids src = (progs ++ period :: rest)%list ->
  Forall (fun y => x_tag y = "ProgramInformation"%string) progs -> x_tag period = "Period"%string ->
  Forall (fun y => ~ In (x_tag y) ["Period"; "BaseURL"; "Location"]%string) rest ->
  c_stl_loss c = false \/ c_multi_url c = [] ->
  get_mpd c e src now = Ok x ->
  adjusted_start_number c = Ok sn -> generate_period_data c sn (adjusted_pto c 0 1) now = Ok (mup, p :: ps) ->
  children "BaseURL" x = [] /\
  exists l, children "Location" x = [l] /\
    split_all "/" (x_text l) = (b0 :: bparts ++ manifest_parts (map (absolute a b) opts) name file)%list.
Proof.
  intros c e src now x progs period rest sn mup p ps b0 bparts opts name file a b
    FU SA SB AL N0 NB PB FO CO NO PN NN PF NF K FP TP NR L G SN GP.
  assert (NRP : none "Period"%string rest) by (eapply Forall_impl; [|exact NR]; cbv beta; cbn [In]; intros y Y E; apply Y; auto).
  apply get_mpd_plain in G; [|exact L].
  destruct (generate_inv _ _ _ _ _ _ G) as (d & _ & _ & _ & _ & _ & D & _).
  destruct (children_of _ _ _ _ _ _ _ _ _ _ _ _ _ K FP TP NRP G D SN GP ltac:(discriminate)) as (urls & cb & U & BU & _ & _).
  unfold url_elems in U. rewrite AL, FU in U.
  rewrite (location_full c b0 bparts opts name file a b SA SB N0 NB PB FO CO NO PN NN PF NF) in U. cbn [bind] in U. injection U as <-.
  split.
  - rewrite (BU "BaseURL"%string) by auto. rewrite (filter_none' "BaseURL" rest); [reflexivity|].
    eapply Forall_impl; [|exact NR]; cbv beta; cbn [In]; intros y Y E; apply Y; auto.
  - eexists. split.
    + rewrite (BU "Location"%string) by auto. rewrite (filter_none' "Location" rest); [cbn [filter]; reflexivity|].
      eapply Forall_impl; [|exact NR]; cbv beta; cbn [In]; intros y Y E; apply Y; auto.
    + change (split_all "/" (join "/" (b0 :: bparts ++ manifest_parts (map (absolute a b) opts) name file)%list) =
        (b0 :: bparts ++ manifest_parts (map (absolute a b) opts) name file)%list).
      apply split_join; [discriminate|]. constructor; [exact N0|]. apply Forall_app. split; [exact NB|].
      unfold manifest_parts. apply Forall_app. split; [|repeat constructor; assumption].
      clear - NO. induction opts as [|(k, v) l IH]; cbn [map] in *; [constructor|]. inversion NO; subst. constructor; [|auto].
      unfold absolute. cbn [fst]. destruct (String.eqb k "startrel"); [|destruct (String.eqb k "stoprel"); [|assumption]].
      * apply (number_no_slash "start_" a). intros I; cbn in I; intuition discriminate.
      * apply (number_no_slash "stop_" b). intros I; cbn in I; intuition discriminate.
Qed.
Example ex_C65 : match ex_live ["startrel_-60"; "tsbd_30"; "stoprel_120"]%string 1000 with
  | Ok x => (map x_text (children "Location" x), map x_text (children "BaseURL" x))
  | Err _ => ([], []) end = (["http://h/livesim/start_936/tsbd_30/stop_1122/testpic/Manifest.mpd"]%string, []).
Proof. vm_compute. reflexivity. Qed.

(** Following the location at any time gives the session of the first
    manifest, whatever the options that do not read the clock. *)
Lemma C65_reload_pf : forall read base opts name file now1 now2 c a b,
  Forall (fun kv => str_in (fst kv) url_cfg_keys = true) opts -> Forall steady opts -> plain_name name ->
  process_url read base (manifest_parts opts name file) now1 = Ok c ->
  c_start_time c = Some a -> c_stop_time c = Some b -> 0 < c_seg_dur c -> 0 <= b ->
  exists p base2, process_url read base (manifest_parts (map (absolute a b) opts) name file) now2 =
    Ok (set_base_url base2 (set_publish_time p (set_add_loc false c))).
Proof.
  intros read base opts name file now1 now2 c a b FO ST PN PU SA SB D B0.
  assert (FO2 : Forall (fun kv => str_in (fst kv) url_cfg_keys = true) (map (absolute a b) opts)).
  { clear - FO. induction FO as [|(k, v) l K F IH]; cbn [map]; [constructor|]. constructor; [|exact IH].
    unfold absolute. cbn [fst]. destruct (String.eqb k "startrel"); [reflexivity|]. destruct (String.eqb k "stoprel"); [reflexivity|exact K]. }
  rewrite process_url_manifest in * by assumption.
  apply bind_inv in PU. destruct PU as (u & U & PU). apply bind_inv in PU. destruct PU as (v & V & PU).
  assert (R0 : reloaded a b (ustate_init base) (ustate_init base)) by (constructor; auto).
  destruct (fold_reloaded now1 now2 a b opts _ u _ ST FO R0 (calm_init base) U) as (u' & U' & R & C).
  rewrite U', V. cbn [bind]. pose proof (rl_cfg _ _ _ _ R) as RC.
  set (cf := set_reps [] (u_cfg (filedata u opts name "" file))) in *.
  destruct (manifest_reloaded u u' opts (map (absolute a b) opts) name file RC) as (base2 & E). fold cf in E.
  rewrite E, sb_tail.
  pose proof (manifest_fields u opts name file) as X. cbv zeta in X. fold cf in X. clearbody cf. clear E.
  destruct X as (X1 & X2 & X3 & X4).
  destruct (tail_reloaded now1 now2 v u u' cf c a b C) as (p & P); auto.
  - rewrite X1. apply C.
  - rewrite X2, (fold_opts_loc _ _ _ _ U). reflexivity.
  - rewrite X3, (fold_opts_start _ _ _ _ U). reflexivity.
  - rewrite X4, (fold_opts_stop _ _ _ _ U). reflexivity.
  - rewrite P. exists p, base2. reflexivity.
Qed.
Example ex_C65_reload :
  let o := [("startrel", "-60"); ("tsbd", "30"); ("stoprel", "120")]%string in
  let f c := (c_start_time c, c_stop_time c, c_ast c, c_tsbd c, c_add_loc c) in
  match ex_cfg (manifest_parts o "testpic" "Manifest.mpd") 1000, ex_cfg (manifest_parts (map (absolute 936 1122) o) "testpic" "Manifest.mpd") 1100 with
  | Ok c1, Ok c2 => (f c1, f c2) = ((Some 936, Some 1122, 936, Some 186, true), (Some 936, Some 1122, 936, Some 186, false))
  | _, _ => False
  end.
Proof. vm_compute. reflexivity. Qed.

(** Findings: the first manifest has no BaseURL, so its media requests carry the
    relative options and get another session; and one relative option alone
    raises. *)
Lemma C65_media_refuted_pf : exists opts now1 now2 c1 c2,
  opts = ["startrel_-60"; "stoprel_120"]%string /\ now1 < now2 /\
  ex_cfg (List.app opts ["testpic"; "Manifest.mpd"]%string) now1 = Ok c1 /\
  (match ex_live opts now1 with Ok x => children "BaseURL" x = [] | Err _ => False end) /\
  ex_cfg (List.app opts ["testpic"; "V1"; "5.m4s"]%string) now2 = Ok c2 /\
  c_ast c1 <> c_ast c2.
Proof.
  eexists _, 1000, 1020, _, _. split; [reflexivity|]. split; [lia|]. split; [vm_compute; reflexivity|].
  split; [vm_compute; reflexivity|]. split; [vm_compute; reflexivity|]. vm_compute. discriminate.
Qed.
Lemma C65_one_sided_refuted_pf : exists c now, ex_cfg ["startrel_-60"; "testpic"; "Manifest.mpd"]%string now = Ok c /\
  get_mpd c (ex_env ["startrel_-60"]%string) ex_source now = Err "TypeError"%string.
Proof.
  set (c := ex_mpd ["startrel_-60"]%string 1000).
  assert (A : ex_cfg ["startrel_-60"; "testpic"; "Manifest.mpd"]%string 1000 = Ok c) by (vm_compute; reflexivity).
  assert (B : get_mpd c (ex_env ["startrel_-60"]%string) ex_source 1000 = Err "TypeError"%string) by (vm_compute; reflexivity).
  clearbody c. exists c, 1000. auto.
Qed.
