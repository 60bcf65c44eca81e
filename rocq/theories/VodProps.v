(** Property theorems; proofs in VodTheory.v, where the examples that meet the
    hypotheses stand beside each lemma. Generated by tools/gen_props.py. *)
From Coq Require Import Permutation ZifyBool ZifyNat.
From Verif Require Import Base BaseProofs BytesModel BoxSpec ConfigModel Mp4Model InitModel MediaModel TimelineModel TimelineSpec
  VodModel VodSpec VodProofs VodProofs2 VodProofs3.
From Verif Require Import VodTheory.
Local Open Scope string_scope.
Open Scope Z_scope.

(** The table written for a set, read back, expands to exactly the numbers,
    starts and durations of the segments of its first representation. *)
Theorem C30_roundtrip : forall base sets cfg ms k s m r1 rs l,
  analyze base sets = Ok (cfg, ms) -> named sets -> nth_error sets k = Some s -> nth_error ms k = Some m ->
  vs_reps s = r1 :: rs -> segments_of r1 (md_timescale m) (vd_first cfg) l -> contiguous l ->
  exists tab, read_table (md_table m) = Ok tab /\ expansion tab = l.
Proof. exact C30_roundtrip_pf. Qed.
(* examples meeting the hypotheses: C30_roundtrip_case *)
Print Assumptions C30_roundtrip.

(** A segment that begins a run (the first one, or one with another duration
    than the segment before it) and whose number, start or duration does not fit
    its field makes the analysis fail. *)
Theorem C30_refused : forall base sets s r1 rs ts first l a x b,
  named sets -> In s sets -> vs_reps s = r1 :: rs -> segments_of r1 ts first l -> contiguous l ->
  l = (a ++ x :: b)%list -> (a = [] \/ s_dur (last a x) <> s_dur x) ->
  (65536 <= s_nr x \/ 4294967296 <= s_start x \/ s_start x < 0 \/ 4294967296 <= s_dur x) ->
  forall out, analyze base sets <> Ok out.
Proof. exact C30_refused_pf. Qed.
(* examples meeting the hypotheses: C30_refused_case, C30_gap_case *)
Print Assumptions C30_refused.

(** The segments of every representation of every set have consecutive numbers,
    from the same first number, and every end is less than 0.1 s off the grid. *)
Theorem C58_grid : forall base sets cfg ms k s m r,
  analyze base sets = Ok (cfg, ms) -> named sets -> nth_error sets k = Some s -> nth_error ms k = Some m ->
  In r (vs_reps s) ->
  exists l, segments_of r (md_timescale m) (vd_first cfg) l /\ near_grid (md_timescale m) (vd_duration cfg) l.
Proof. exact C58_grid_pf. Qed.
(* examples meeting the hypotheses: C58_grid_case *)
Print Assumptions C58_grid.

(** The loop holds the first [vd_n] segments of the first representation of each
    set, and their extent is less than 0.1 s off the duration of the loop. *)
Theorem C58_loop_partial : forall base sets cfg ms k s m r1 rs l,
  analyze base sets = Ok (cfg, ms) -> named sets -> nth_error sets k = Some s -> nth_error ms k = Some m ->
  vs_reps s = r1 :: rs -> segments_of r1 (md_timescale m) (vd_first cfg) l ->
  let loop := firstn (Z.to_nat (vd_n cfg)) l in
  0 < vd_n cfg /\ Z.of_nat (List.length loop) = vd_n cfg /\
  exists t, extent loop t /\ 10 * Z.abs (t - vd_n cfg * vd_duration cfg * md_timescale m) < md_timescale m.
Proof. exact C58_loop_partial_pf. Qed.
(* examples meeting the hypotheses: C58_loop_partial_case *)
Print Assumptions C58_loop_partial.

(** The total duration noted for a set as long as the loop is that of its
    content, and less than 0.1 s off the duration of the loop. *)
Theorem C58_duration_partial : forall base sets cfg ms k s m r1 rs l,
  analyze base sets = Ok (cfg, ms) -> named sets -> nth_error sets k = Some s -> nth_error ms k = Some m ->
  vs_reps s = r1 :: rs -> segments_of r1 (md_timescale m) (vd_first cfg) l ->
  extent l (md_total m) /\
  (Z.of_nat (List.length l) = vd_n cfg ->
   10 * Z.abs (md_total m - vd_n cfg * vd_duration cfg * md_timescale m) < md_timescale m).
Proof. exact C58_duration_partial_pf. Qed.
(* examples meeting the hypotheses: C58_duration_partial_case *)
Print Assumptions C58_duration_partial.

(** Sets of different length are accepted; the loop then ends with the shortest
    one, far from the end of the longer one. *)
Theorem C58_total_refuted : exists base sets cfg ms m, analyze base sets = Ok (cfg, ms) /\ named sets /\ In m ms /\
  ~ 10 * Z.abs (md_total m - vd_n cfg * vd_duration cfg * md_timescale m) < md_timescale m.
Proof. exact C58_total_refuted_pf. Qed.
Print Assumptions C58_total_refuted.

(** A further representation that is shorter than the loop is accepted: some
    segment number of the loop has no file. *)
Theorem C58_missing_refuted : exists base sets cfg ms s r nr, analyze base sets = Ok (cfg, ms) /\ named sets /\
  In s sets /\ In r (vs_reps s) /\ vd_first cfg <= nr < vd_first cfg + vd_n cfg /\ ~ In nr (map fst (vr_files r)).
Proof. exact C58_missing_refuted_pf. Qed.
Print Assumptions C58_missing_refuted.

(** The configuration written after an analysis is read back with the same
    loop, duration and media data of video and audio, and a representation is
    found under its content type when no other set has its id. *)
Theorem C54_roundtrip_partial : forall base sets cfg ms,
  analyze base sets = Ok (cfg, ms) -> named sets -> strip base = base ->
  Forall (fun s => Forall (fun r => plain_id (vr_id r)) (vs_reps s)) sets -> vd_duration cfg <> 0 ->
  exists v, read_config (write_config cfg) = Ok v /\ v_first v = vd_first cfg /\ v_n v = vd_n cfg /\ v_dur v = vd_duration cfg /\
    v_tsbd v = vd_tsbd cfg /\ NoDup (map fst (v_media v)) /\
    forall k s m, nth_error sets k = Some s -> nth_error ms k = Some m -> In (vs_type s) ["video"; "audio"] ->
    let entry := mkMedia (md_timescale m) (map vr_id (vs_reps s)) (Some (md_total m)) (Some (md_dat m)) in
    In (vs_type s, entry) (v_media v) /\
    forall r, In r (vs_reps s) ->
      (forall s', In s' sets -> vs_type s' <> vs_type s -> ~ In (vr_id r) (map vr_id (vs_reps s'))) ->
      content_type_for_rep (v_media v) (vr_id r) = Some (vs_type s, entry).
Proof. exact C54_roundtrip_partial_pf. Qed.
(* examples meeting the hypotheses: C54_roundtrip_partial_case *)
Print Assumptions C54_roundtrip_partial.

(** The number of ids changes when one of them contains a comma. *)
Theorem C54_comma_refuted : exists base sets cfg ms v r, analyze base sets = Ok (cfg, ms) /\ named sets /\
  read_config (write_config cfg) = Ok v /\ In r (flat_map vs_reps sets) /\ strip (vr_id r) = vr_id r /\
  content_type_for_rep (v_media v) (vr_id r) = None.
Proof. exact C54_comma_refuted_pf. Qed.
Print Assumptions C54_comma_refuted.

(** Sets of other types are analyzed, but not written. *)
Theorem C54_subtitles_refuted : exists base sets cfg ms v r, analyze base sets = Ok (cfg, ms) /\ named sets /\
  Forall (fun s => Forall (fun r => plain_id (vr_id r)) (vs_reps s)) sets /\
  read_config (write_config cfg) = Ok v /\ In r (flat_map vs_reps sets) /\ content_type_for_rep (v_media v) (vr_id r) = None.
Proof. exact C54_subtitles_refuted_pf. Qed.
Print Assumptions C54_subtitles_refuted.

(** A representation whose id is also used by the video is found as video. *)
Theorem C54_same_id_refuted : exists base sets cfg ms v s r m, analyze base sets = Ok (cfg, ms) /\ named sets /\
  Forall (fun s => Forall (fun r => plain_id (vr_id r)) (vs_reps s)) sets /\
  read_config (write_config cfg) = Ok v /\ In s sets /\ In r (vs_reps s) /\ vs_type s = "audio" /\
  content_type_for_rep (v_media v) (vr_id r) = Some ("video", m).
Proof. exact C54_same_id_refuted_pf. Qed.
Print Assumptions C54_same_id_refuted.

(** Segments shorter than a second are analyzed with a nominal duration of 0
    seconds, and the configuration that is written is refused.  (With time scale
    1000, one segment of 0.05 s.) *)
Theorem C54_short_refuted : exists base sets cfg ms, analyze base sets = Ok (cfg, ms) /\ named sets /\
  Forall (fun s => Forall (fun r => plain_id (vr_id r)) (vs_reps s)) sets /\
  read_config (write_config cfg) = Err "ConfigProcessorError".
Proof. exact C54_short_refuted_pf. Qed.
Print Assumptions C54_short_refuted.

(** The table and configuration of contiguous content that starts at 0 and ends
    exactly with the loop give a timeline generator whose loop is that content:
    the hypotheses of the timeline theorems are met. *)
Theorem C66_generator : forall base sets cfg ms v c k s m r1 rs l s0 rest,
  analyze base sets = Ok (cfg, ms) -> named sets -> read_config (write_config cfg) = Ok v ->
  nth_error sets k = Some s -> nth_error ms k = Some m -> vs_reps s = r1 :: rs ->
  segments_of r1 (md_timescale m) (vd_first cfg) l -> contiguous l ->
  l = s0 :: rest -> s_start s0 = 0 -> s_end (last l s0) = vd_n cfg * vd_duration cfg * md_timescale m ->
  exists tab, read_table (md_table m) = Ok tab /\
    let g := generator (update_with_vodcfg c v) (md_timescale m) tab in
    table_segs (tg_table g) = map (fun x => (s_start x, s_dur x)) l /\ gen_ok g /\ on_grid g (vd_duration cfg).
Proof. exact C66_generator_pf. Qed.
(* examples meeting the hypotheses: C66_generator_case *)
Print Assumptions C66_generator.

(** With what the server finds in the file it has read: entry, time scale and
    name of the table. *)
Theorem C66_server : forall base sets cfg ms v c k s m r1 rs l s0 rest,
  analyze base sets = Ok (cfg, ms) -> named sets -> strip base = base ->
  Forall (fun s => Forall (fun r => plain_id (vr_id r)) (vs_reps s)) sets -> vd_duration cfg <> 0 ->
  read_config (write_config cfg) = Ok v ->
  nth_error sets k = Some s -> nth_error ms k = Some m -> vs_reps s = r1 :: rs -> In (vs_type s) ["video"; "audio"] ->
  segments_of r1 (md_timescale m) (vd_first cfg) l -> contiguous l ->
  l = s0 :: rest -> s_start s0 = 0 -> s_end (last l s0) = vd_n cfg * vd_duration cfg * md_timescale m ->
  exists entry tab, In (vs_type s, entry) (v_media v) /\
    (forall other, In (vs_type s, other) (v_media v) -> other = entry) /\
    m_dat entry = Some (md_dat m) /\ read_table (md_table m) = Ok tab /\
    let g := generator (update_with_vodcfg c v) (m_timescale entry) tab in
    tg_timescale g = md_timescale m /\
    table_segs (tg_table g) = map (fun x => (s_start x, s_dur x)) l /\ gen_ok g /\ on_grid g (v_dur v).
Proof. exact C66_server_pf. Qed.
(* examples meeting the hypotheses: C66_server_case *)
Print Assumptions C66_server.
