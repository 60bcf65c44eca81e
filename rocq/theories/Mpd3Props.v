(** Property theorems; proofs in Mpd3Theory.v, where the examples that meet the
    hypotheses stand beside each lemma. Generated by tools/gen_props.py. *)
From Coq Require Import Lqa ZifyBool ZifyNat.
From Verif Require Import Base BaseProofs ConfigModel ProxyModel ProxySpec ProxyProofs ProxyTheory Proxy2Theory ConfigProofs ConfigTheory
  SessionProofs ClockProofs TimeModel StrModel TimelineModel TimelineSpec TimelineProofs TimelineTheory PeriodModel PeriodSpec PeriodTheory
  MpdModel MpdSpec MpdProofs MpdTheory Mpd2Spec Mpd2Proofs Mpd2Theory Mpd3Spec Mpd3Proofs.
From Verif Require Import Mpd3Theory.
Open Scope Z_scope.

(** ** C62: one Period per period of the schedule, everything else as in the
    source, for every addressing mode and every session: the schedule is that of
    some moment [t], the present one unless the server plays a loss schedule.
    Full statement: for every source with one Period and every configuration;
    left out are a negative time shift buffer and, when there are several
    periods, sources with other elements than ProgramInformation and one BaseURL
    before the Period (C62_front_refuted). *)
Theorem C62_tree_partial : forall c e src now x pre period rest,
  x_kids src = (pre ++ period :: rest)%list -> x_tag period = "Period"%string ->
  Forall (fun y => x_tag y <> "Period"%string) pre -> Forall (fun y => x_tag y <> "Period"%string) rest ->
  (forall b, c_tsbd c = Some b -> 0 <= b + c_seg_dur c) ->
  get_mpd c e src now = Ok x ->
  exists t sn mup ps, t <= now /\ (c_stl_loss c = false \/ c_multi_url c = [] -> t = now) /\
    adjusted_start_number c = Ok sn /\ generate_period_data c sn (adjusted_pto c 0 1) t = Ok (mup, ps) /\
    get "availabilityStartTime" x = Some (make_timestamp (c_ast c)) /\
    get "publishTime" x = Some (make_timestamp t) /\
    (c_mpdur c = None -> get "mediaPresentationDuration" x = None) /\
    (forall b, c_tsbd c = Some b -> c_mpdur c = None -> ~ ended c t -> get "timeShiftBufferDepth" x = Some (seconds_to_iso_duration b)) /\
    (forall s, c_spd c = Some s -> get "suggestedPresentationDelay" x = Some (seconds_to_iso_duration s)) /\
    (List.length ps = 1%nat \/ expected_front pre ->
      Forall2 (fun p P => period_with c (template_any c (me_tables e) p) p period P) ps (children "Period" x) /\
      forall tag, ~ In tag managed_tags -> children tag x = children tag src).
Proof. exact C62_tree_partial_pf. Qed.
(* examples meeting the hypotheses: ex_C62_tree, ex_C62_front *)
Print Assumptions C62_tree_partial.

(** With any other element before the Period it is that element that is copied
    (mpdprocessor.py line 200 reads the child at the old position), so a schedule
    of several periods leaves one Period in the manifest. *)
Theorem C62_front_refuted : exists c e src now x mup ps,
  children "Period" src <> [] /\ (exists a, x_kids src = [Elem "Location" [] "http://h/m.mpd" []; a] /\ x_tag a = "Period")%string /\
  get_mpd c e src now = Ok x /\ generate_period_data c 0 0 now = Ok (mup, ps) /\
  List.length ps = 3%nat /\ List.length (children "Period" x) = 1%nat /\ List.length (children "Location" x) = 3%nat.
Proof. exact C62_front_refuted_pf. Qed.
Print Assumptions C62_front_refuted.

(** With SegmentTimeline addressing the templates list the segments of their
    content type that lie in the period and in the time shift buffer.  Full
    statement: for every session; left out are sessions with a stop time and
    time offset 0, and windows that meet a run of the table in two turns of the
    loop (C26_wrap_refuted). *)
Theorem C62_timeline_partial : forall c e src now x progs period rest sn mup ps depth,
  x_kids src = (progs ++ period :: rest)%list ->
  Forall (fun y => x_tag y = "ProgramInformation"%string) progs -> x_tag period = "Period"%string ->
  Forall (fun y => x_tag y <> "Period"%string) rest ->
  c_stl_loss c = false \/ c_multi_url c = [] -> (c_segtl c = true \/ c_segtlnr c = true) ->
  c_tsbd c = Some depth -> c_stop_time c = None \/ c_timeoffset c <> Some 0 ->
  get_mpd c e src now = Ok x ->
  adjusted_start_number c = Ok sn -> generate_period_data c sn (adjusted_pto c 0 1) now = Ok (mup, ps) -> ps <> [] ->
  (forall p, In p ps -> 0 <= shown_from c depth now p /\ 0 <= shown_until c now p /\
     forall ct g, track_table c (me_tables e) ct g -> gen_ok g /\ clean_window g (shown_from c depth now p) (shown_until c now p)) ->
  Forall2 (fun p P => period_with c (template_lists c (me_tables e) depth now p) p period P) ps (children "Period" x).
Proof. exact C62_timeline_partial_pf. Qed.
(* examples meeting the hypotheses: ex_C62_timeline, ex_C62_timeline_case *)
Print Assumptions C62_timeline_partial.

Theorem C27_manifest_partial : forall read base opts name mfile rp v ct m g c now a0 b e src progs period rest x,
  Forall (fun kv => str_in (fst kv) url_cfg_keys = true) opts -> plain_name name ->
  process_url read base (manifest_parts opts name mfile) now = Ok c ->
  read name = Ok v -> split_dunder rp = [rp] -> content_type_for_rep (v_media v) rp = Some (ct, m) ->
  (* the tables of the content *)
  track_table c (me_tables e) ct g -> tg_timescale g = m_timescale m -> on_grid g (c_seg_dur c) ->
  (forall ct' g', track_table c (me_tables e) ct' g' -> gen_ok g' /\ clean_window g' (Z.max 0 (now - b - c_ast c)) (now - c_ast c)) ->
  wf_cfg c -> (c_segtl c = true \/ c_segtlnr c = true) -> c_pph c = -1 -> c_insert_ad c <= 0 -> (forall u, c_multi_url c <> [u]) ->
  c_start_nr c = 0 -> c_timeoffset c = None -> c_ato c = Some a0 -> (0 <= a0)%Q -> c_tsbd c = Some b -> 0 <= b ->
  c_stop_time c = None -> c_last_nrs c = [] -> c_aet c = None -> c_ast c <= now -> c_stl_loss c = false ->
  x_kids src = (progs ++ period :: rest)%list ->
  Forall (fun y => x_tag y = "ProgramInformation"%string) progs -> x_tag period = "Period"%string ->
  Forall (fun y => x_tag y <> "Period"%string) rest ->
  get_mpd c e src now = Ok x ->
  exists P, children "Period" x = [P] /\ get "start" P = Some "PT0S"%string /\
  forall A T l, In A (children "AdaptationSet" P) -> get "contentType" A = Some ct -> In T (children "SegmentTemplate" A) ->
    client_timeline T = Some l ->
    let listed file t d := exists sv s, request read base (media_parts opts name rp file) (inject_Z now) = Ok (Serve sv) /\
      nth_error (table_segs (tg_table g)) (Z.to_nat (sv_vod sv - c_vod_first c)) = Some (s, d) /\
      t = sv_offset sv * tg_timescale g + s in
    forall i t d, nth_error l i = Some (t, d) ->
      listed ("t" ++ print_nat t ++ ".m4s")%string t d /\
      (c_segtl c = false -> exists s, int_attr "startNumber" T = Some s /\ listed (print_nat (s + Z.of_nat i) ++ ".m4s")%string t d).
Proof. exact C27_manifest_partial_pf. Qed.
(* examples meeting the hypotheses: ex_C27_manifest *)
Print Assumptions C27_manifest_partial.

(** Finding: after the stop time the (then static) manifest with start and stop
    time keeps moving its listing window; it lists segments beyond the stop
    time, which are refused, and no longer lists the first ones, which are
    served.  The code limits the window only when timeoffset_0 is given. *)
Theorem C27_stopped_refuted : exists opts now x P A T l c,
  process_url tl_read "http://h/livesim/" (manifest_parts opts "testpic" "Manifest.mpd") now = Ok c /\
  get_mpd c tl_env ex_source now = Ok x /\ get "type" x = Some "static"%string /\
  children "Period" x = [P] /\ In A (children "AdaptationSet" P) /\ get "contentType" A = Some "video"%string /\
  children "SegmentTemplate" A = [T] /\ client_timeline T = Some l /\
  (exists t d, In (t, d) l /\
    request tl_read "http://h/livesim/" (media_parts opts "testpic" "V1" ("t" ++ print_nat t ++ ".m4s")) (inject_Z now) = Ok (Refuse RBeyondStop)) /\
  (exists t sv, ~ In t (map fst l) /\
    request tl_read "http://h/livesim/" (media_parts opts "testpic" "V1" ("t" ++ print_nat t ++ ".m4s")) (inject_Z now) = Ok (Serve sv)).
Proof. exact C27_stopped_refuted_pf. Qed.
Print Assumptions C27_stopped_refuted.
