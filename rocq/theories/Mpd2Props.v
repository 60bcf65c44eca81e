(** Property theorems; proofs in Mpd2Theory.v, where the examples that meet the
    hypotheses stand beside each lemma. Generated by tools/gen_props.py. *)
From Coq Require Import Lqa ZifyBool ZifyNat.
From Verif Require Import Base BaseProofs ConfigModel ProxyModel ProxySpec ProxyProofs ProxyTheory Proxy2Theory ConfigProofs ConfigTheory
  SessionProofs ClockProofs TimeModel StrModel TimelineModel PeriodModel PeriodSpec PeriodTheory MpdModel MpdSpec MpdProofs MpdTheory
  Mpd2Spec Mpd2Proofs.
From Verif Require Import Mpd2Theory.
Open Scope Z_scope.

(** ** C62: one Period per period of the schedule, everything else as in the
    source.  Full statement: also for SegmentTimeline addressing; here number
    addressing, sources with one Period and no loss schedule. *)
Theorem C62_periods_partial : forall c e src now x progs period rest sn mup ps,
  x_kids src = (progs ++ period :: rest)%list ->
  Forall (fun y => x_tag y = "ProgramInformation"%string) progs -> x_tag period = "Period"%string ->
  Forall (fun y => x_tag y <> "Period"%string) rest ->
  c_stl_loss c = false \/ c_multi_url c = [] -> c_segtl c = false -> c_segtlnr c = false ->
  get_mpd c e src now = Ok x ->
  adjusted_start_number c = Ok sn -> generate_period_data c sn (adjusted_pto c 0 1) now = Ok (mup, ps) -> ps <> [] ->
  Forall2 (fun p P => period_for c p period P) ps (children "Period" x) /\
  (forall t, ~ In t ["Period"; "BaseURL"; "Location"; "ServiceDescription"; "UTCTiming"]%string -> children t x = children t src).
Proof. exact C62_periods_partial_pf. Qed.
(* examples meeting the hypotheses: ex_C62 *)
Print Assumptions C62_periods_partial.

(** The attributes of the root. *)
Theorem C62_attributes : forall c e src now x,
  c_stl_loss c = false \/ c_multi_url c = [] -> get_mpd c e src now = Ok x ->
  get "availabilityStartTime" x = Some (make_timestamp (c_ast c)) /\
  get "publishTime" x = Some (make_timestamp now) /\
  (c_mpdur c = None -> get "mediaPresentationDuration" x = None) /\
  (forall b, c_tsbd c = Some b -> c_mpdur c = None -> ~ ended c now -> get "timeShiftBufferDepth" x = Some (seconds_to_iso_duration b)) /\
  (forall s, c_spd c = Some s -> get "suggestedPresentationDelay" x = Some (seconds_to_iso_duration s)).
Proof. exact C62_attributes_pf. Qed.
(* examples meeting the hypotheses: ex_C62_attributes *)
Print Assumptions C62_attributes.

Theorem C56_manifest_partial : forall read base opts name mfile rp v ct m c now b e src progs period rest x,
  Forall (fun kv => str_in (fst kv) url_cfg_keys = true) opts -> plain_name name ->
  process_url read base (manifest_parts opts name mfile) now = Ok c ->
  read name = Ok v -> split_dunder rp = [rp] -> content_type_for_rep (v_media v) rp = Some (ct, m) ->
  wf_cfg c -> c_pph c = -1 -> c_insert_ad c <= 0 -> (forall u, c_multi_url c <> [u]) ->
  c_ato c = Some 0%Q -> c_tsbd c = Some b -> 0 <= b ->
  c_stop_time c = None -> c_last_nrs c = [] -> c_aet c = None ->
  (c_timeoffset c = None \/ (c_start_nr c <> -1 /\ first_nr c <> -1)) ->
  c_stl_loss c = false -> c_segtl c = false -> c_segtlnr c = false ->
  x_kids src = (progs ++ period :: rest)%list ->
  Forall (fun y => x_tag y = "ProgramInformation"%string) progs -> x_tag period = "Period"%string ->
  Forall (fun y => x_tag y <> "Period"%string) rest ->
  get_mpd c e src now = Ok x ->
  exists P, children "Period" x = [P] /\ get "start" P = Some "PT0S"%string /\
  forall A T s, In A (children "AdaptationSet" P) -> In T (children "SegmentTemplate" A) -> client_number T = Ok s ->
    let d := c_seg_dur c in
    let latest := (now - c_ast c) / d + s - 1 in
    let served n := exists sv, request read base (media_parts opts name rp (print_nat n ++ ".m4s")) (inject_Z now) = Ok (Serve sv) in
    (forall n, 0 <= n -> s <= n <= latest -> now - b <= c_ast c + (n - s + 1) * d -> served n) /\
    (0 <= latest + 1 -> ~ served (latest + 1)).
Proof. exact C56_manifest_partial_pf. Qed.
(* examples meeting the hypotheses: ex_C56_manifest *)
Print Assumptions C56_manifest_partial.

(** ** C63: the BaseURL leads back to the same session. *)
Theorem C63_base_url : forall read base bparts opts name mfile now c e src progs period rest sn mup p ps x,
  Forall (fun kv => str_in (fst kv) url_cfg_keys = true) opts -> plain_name name ->
  base = (join "/" bparts ++ "/")%string -> bparts <> [] -> Forall no_slash bparts ->
  Forall no_slash (map opt_text opts) -> no_slash name ->
  process_url read base (manifest_parts opts name mfile) now = Ok c ->
  x_kids src = (progs ++ period :: rest)%list ->
  Forall (fun y => x_tag y = "ProgramInformation"%string) progs -> x_tag period = "Period"%string ->
  Forall (fun y => ~ In (x_tag y) ["Period"; "BaseURL"]%string) rest ->
  c_multi_url c = [] -> c_add_loc c = false ->
  get_mpd c e src now = Ok x ->
  adjusted_start_number c = Ok sn -> generate_period_data c sn (adjusted_pto c 0 1) now = Ok (mup, p :: ps) ->
  exists b, children "BaseURL" x = [b] /\
  forall rp file, no_slash rp -> no_slash file ->
    (* what a client requests, and the server takes apart *)
    split_all "/" (x_text b ++ rp ++ "/" ++ file) = (bparts ++ media_parts opts name rp file)%list /\
    (forall v ct m, read name = Ok v -> split_dunder rp = [rp] -> content_type_for_rep (v_media v) rp = Some (ct, m) ->
     process_url read base (media_parts opts name rp file) now = Ok (refile rp file [mkRep rp ct (m_timescale m)] c)).
Proof. exact C63_base_url_pf. Qed.
Print Assumptions C63_base_url.

(** The same for a source that has a BaseURL of its own, which is replaced
    (whatever baseurl options there are). *)
Theorem C63_source_base : forall read base bparts opts name mfile now c e src progs b0 period rest x,
  Forall (fun kv => str_in (fst kv) url_cfg_keys = true) opts -> plain_name name ->
  base = (join "/" bparts ++ "/")%string -> bparts <> [] -> Forall no_slash bparts ->
  Forall no_slash (map opt_text opts) -> no_slash name ->
  process_url read base (manifest_parts opts name mfile) now = Ok c ->
  x_kids src = (progs ++ b0 :: period :: rest)%list ->
  Forall (fun y => x_tag y = "ProgramInformation"%string) progs -> x_tag b0 = "BaseURL"%string -> x_tag period = "Period"%string ->
  Forall (fun y => x_tag y <> "BaseURL"%string) rest ->
  c_stl_loss c = false \/ c_multi_url c = [] -> c_add_loc c = false ->
  get_mpd c e src now = Ok x ->
  exists b, children "BaseURL" x = [b] /\
  forall rp file, no_slash rp -> no_slash file ->
    split_all "/" (x_text b ++ rp ++ "/" ++ file) = (bparts ++ media_parts opts name rp file)%list /\
    (forall v ct m, read name = Ok v -> split_dunder rp = [rp] -> content_type_for_rep (v_media v) rp = Some (ct, m) ->
     process_url read base (media_parts opts name rp file) now = Ok (refile rp file [mkRep rp ct (m_timescale m)] c)).
Proof. exact C63_source_base_pf. Qed.
(* examples meeting the hypotheses: ex_C63_source, ex_C63 *)
Print Assumptions C63_source_base.

Theorem C64_base_urls_refuted : exists c e src now x urls,
  ex_cfg (List.app ex_two ["testpic"; "Manifest.mpd"]%string) now = Ok c /\
  get_mpd c e src now = Ok x /\ children "BaseURL" x = urls /\ List.length urls = 2%nat /\
  (exists sv, ex_get (List.app ex_two ["testpic"; "V1"; "165.m4s"]%string) (inject_Z now) = Ok (Serve sv)) /\
  forall u, In u urls -> exists parts,
    split_all "/" (x_text u ++ "V1/165.m4s") = (["http:"; ""; "h"; "livesim"] ++ parts)%list%string /\
    ex_get parts (inject_Z now) = Err "NoSectionError"%string.
Proof. exact C64_base_urls_refuted_pf. Qed.
Print Assumptions C64_base_urls_refuted.

(** ** C65: a session with times relative to the request.  The manifest names
    its own URL with the times written out. *)
Theorem C65_location : forall c e src now x progs period rest sn mup p ps b0 bparts opts name file a b,
  me_full_url e = join "/" (b0 :: bparts ++ manifest_parts opts name file)%list ->
  c_start_time c = Some a -> c_stop_time c = Some b -> c_add_loc c = true ->
  no_slash b0 -> Forall no_slash bparts -> Forall plain_name bparts ->
  Forall (fun kv => str_in (fst kv) url_cfg_keys = true) opts -> Forall canonical opts -> Forall no_slash (map opt_text opts) ->
  plain_name name -> no_slash name -> plain_name file -> no_slash file ->
  x_kids src = (progs ++ period :: rest)%list ->
  Forall (fun y => x_tag y = "ProgramInformation"%string) progs -> x_tag period = "Period"%string ->
  Forall (fun y => ~ In (x_tag y) ["Period"; "BaseURL"; "Location"]%string) rest ->
  c_stl_loss c = false \/ c_multi_url c = [] ->
  get_mpd c e src now = Ok x ->
  adjusted_start_number c = Ok sn -> generate_period_data c sn (adjusted_pto c 0 1) now = Ok (mup, p :: ps) ->
  children "BaseURL" x = [] /\
  exists l, children "Location" x = [l] /\
    split_all "/" (x_text l) = (b0 :: bparts ++ manifest_parts (map (absolute a b) opts) name file)%list.
Proof. exact C65_location_pf. Qed.
(* examples meeting the hypotheses: ex_C65 *)
Print Assumptions C65_location.

(** Following the location at any time gives the session of the first
    manifest, whatever the options that do not read the clock. *)
Theorem C65_reload : forall read base opts name file now1 now2 c a b,
  Forall (fun kv => str_in (fst kv) url_cfg_keys = true) opts -> Forall steady opts -> plain_name name ->
  process_url read base (manifest_parts opts name file) now1 = Ok c ->
  c_start_time c = Some a -> c_stop_time c = Some b -> 0 < c_seg_dur c -> 0 <= b ->
  exists p base2, process_url read base (manifest_parts (map (absolute a b) opts) name file) now2 =
    Ok (set_base_url base2 (set_publish_time p (set_add_loc false c))).
Proof. exact C65_reload_pf. Qed.
(* examples meeting the hypotheses: ex_C65_reload *)
Print Assumptions C65_reload.

(** Findings: the first manifest has no BaseURL, so its media requests carry the
    relative options and get another session; and one relative option alone
    raises. *)
Theorem C65_media_refuted : exists opts now1 now2 c1 c2,
  opts = ["startrel_-60"; "stoprel_120"]%string /\ now1 < now2 /\
  ex_cfg (List.app opts ["testpic"; "Manifest.mpd"]%string) now1 = Ok c1 /\
  (match ex_live opts now1 with Ok x => children "BaseURL" x = [] | Err _ => False end) /\
  ex_cfg (List.app opts ["testpic"; "V1"; "5.m4s"]%string) now2 = Ok c2 /\
  c_ast c1 <> c_ast c2.
Proof. exact C65_media_refuted_pf. Qed.
Print Assumptions C65_media_refuted.

Theorem C65_one_sided_refuted : exists c now, ex_cfg ["startrel_-60"; "testpic"; "Manifest.mpd"]%string now = Ok c /\
  get_mpd c (ex_env ["startrel_-60"]%string) ex_source now = Err "TypeError"%string.
Proof. exact C65_one_sided_refuted_pf. Qed.
Print Assumptions C65_one_sided_refuted.
