(** Property theorems; proofs in PlayerTheory.v, where the examples that meet the
    hypotheses stand beside each lemma. Generated by tools/gen_props.py. *)
From Coq Require Import Lqa.
From Verif Require Import Base BaseProofs BytesModel BytesProofs StrModel BoxSpec ConfigModel ConfigProofs ConfigTheory
  ProxyModel ProxySpec ProxyProofs ProxyTheory SessionProofs ClockProofs TimeModel TimeSpec TimeTheory PeriodModel PeriodSpec PeriodProofs PeriodTheory
  MpdModel MpdSpec MpdProofs MpdTheory Mpd2Spec Mpd2Proofs Mpd2Theory Mpd3Spec Mpd3Proofs Mpd3Theory
  MediaSpec MediaTheory HttpModel HttpSpec HttpProofs HttpTheory EndSpec EndTheory InitSpec InitTheory ServeSpec ServeTheory PlayerSpec PlayerProofs Player2Proofs.
From Verif Require Import PlayerTheory.
Local Open Scope string_scope.
Open Scope Z_scope.

(** ** C69: a player that reads the manifest of such a session and requests
    segments as the manifest says gets each of them, and the right one, exactly
    while the manifest says it is available. *)
Theorem C69_media_partial : forall limit s sid history r0 opts first name mfile t0 c vc x v ct m,
  playing s r0 opts name t0 c vc x v ct m first mfile ->
  forall n r t l, for_url r (media_url v n) -> hr_range r = None -> admitted limit r t -> (0 <= t)%Q ->
  fill (vw_id v) (print_Z n) (vw_media v) = vw_id v ++ "/" ++ print_Z n ++ ".m4s" ->
  Z.max 0 (vw_number v) <= n < 4294967296 ->
  announceable c (mkRep (vw_id v) ct (m_timescale m)) n ->
  let i := vw_period v / vw_seconds v + (n - vw_number v) in
  let loops := i / v_n vc in
  st_files s name (vw_id v) (v_first vc + i mod v_n vc) ".m4s" = Ok (encs l) ->
  sendable (loops * (v_n vc * v_dur vc) * m_timescale m) l ->
  exists reply, fst (application limit s r t sid (run limit s history [])) = Ok reply /\
    (may_request v n t ->
       rp_status reply = 200 /\ exists out, rp_body reply = [encs out] /\
         sent c (mkRep (vw_id v) ct (m_timescale m)) n (py_int_of_Q t) false l out /\
         (* the stored segments lie at multiples of the duration from [o] on, with any deviations: the sent one lies at its
            presentation time, with the same deviations *)
         (forall o ts, decodes l (map (fun u => o + i mod v_n vc * vw_seconds v * m_timescale m + u) ts) ->
                       decodes out (map (fun u => o + presented v n (m_timescale m) + u) ts))) /\
    (~ may_request v n t -> rp_status reply = 404).
Proof. exact C69_media_partial_pf. Qed.
Print Assumptions C69_media_partial.

(** The media time at the start of the period is announced as presentation time
    offset, in seconds; this is right if the template counts in seconds. *)
Theorem C69_offset_partial : forall c e src t0 x progs period rest v,
  live_session c -> 0 < c_seg_dur c -> c_peroff c < 0 ->
  x_kids src = (progs ++ period :: rest)%list ->
  Forall (fun y => x_tag y = "ProgramInformation") progs -> x_tag period = "Period" ->
  Forall (fun y => x_tag y <> "Period") rest ->
  (forall A T, In A (children "AdaptationSet" period) -> In T (children "SegmentTemplate" A) ->
     get "presentationTimeOffset" T = None /\ (c_pph c <> -1 -> int_or "timescale" 1 T 1)) ->
  get_mpd c e src t0 = Ok x -> sees x v -> 0 <= vw_period v ->
  (vw_offset v == inject_Z (vw_period v))%Q.
Proof. exact C69_offset_partial_pf. Qed.
Print Assumptions C69_offset_partial.

(** The initialization segment. *)
Theorem C69_init_partial : forall limit s sid history r0 opts first name mfile t0 c vc x v ct m,
  playing s r0 opts name t0 c vc x v ct m first mfile ->
  forall r t l file, for_url r (init_url v) -> hr_range r = None -> admitted limit r t -> (0 <= t)%Q ->
  fill (vw_id v) "" (vw_init v) = vw_id v ++ "/" ++ file -> no_slash file -> snd (splitext file) = ".mp4" ->
  st_inits s name (vw_id v) file = Ok (encs l) -> l <> [] -> boxes_ok movie_containers header_ok l ->
  exists reply, fst (application limit s r t sid (run limit s history [])) = Ok reply /\
    ((inject_Z (vw_ast v - c_init_off c) <= t)%Q ->
       rp_status reply = 200 /\ exists out, rp_body reply = [encs out] /\ live_init l out) /\
    (~ (inject_Z (vw_ast v - c_init_off c) <= t)%Q -> rp_status reply = 404).
Proof. exact C69_init_partial_pf. Qed.
(* examples meeting the hypotheses: play_sees, periods_sees, stop_sees, play_playing, periods_playing, stop_playing, C69_media_case, C69_window_cases, C69_offset_case, ticks_sees *)
Print Assumptions C69_init_partial.

(** With a template that counts in ticks the periods of a multi-period manifest
    do not begin at their start: all media are presented too late. *)
Theorem C69_offset_refuted : exists c e src t0 x progs period v,
  live_session c /\ 0 < c_seg_dur c /\ c_peroff c < 0 /\ x_kids src = (progs ++ [period])%list /\ x_tag period = "Period" /\
  Forall (fun y => x_tag y = "ProgramInformation") progs /\
  (forall A T, In A (children "AdaptationSet" period) -> In T (children "SegmentTemplate" A) -> get "presentationTimeOffset" T = None) /\
  get_mpd c e src t0 = Ok x /\ sees x v /\ vw_seconds v = c_seg_dur c /\ 0 < vw_period v /\
  (vw_offset v < inject_Z (vw_period v))%Q.
Proof. exact C69_offset_refuted_pf. Qed.
(* examples meeting the hypotheses: C69_init_case *)
Print Assumptions C69_offset_refuted.
