(** Property theorems; proofs in StreamTheory.v, where the examples that meet the
    hypotheses stand beside each lemma. Generated by tools/gen_props.py. *)
From Coq Require Import Lqa.
From Verif Require Import Base BaseProofs BytesModel BytesProofs StrModel BoxSpec ConfigModel ConfigProofs ConfigTheory
  ProxyModel ProxySpec ProxyProofs ProxyTheory SessionProofs ClockProofs TimeModel TimeSpec TimeTheory PeriodModel PeriodSpec PeriodProofs PeriodTheory
  MpdModel MpdSpec MpdProofs MpdTheory TimelineModel TimelineSpec TimelineProofs TimelineTheory Mpd2Spec Mpd2Proofs Mpd2Theory Mpd3Spec Mpd3Proofs Mpd3Theory
  MediaSpec MediaTheory HttpModel HttpSpec HttpProofs HttpTheory EndSpec EndTheory InitSpec InitTheory ServeSpec ServeTheory
  PlayerSpec PlayerProofs Player2Proofs PlayerTheory StreamSpec.
From Verif Require Import StreamTheory.
Local Open Scope string_scope.
Open Scope Z_scope.

Theorem C72_listed_partial : forall limit s sid history r0 opts first name mfile t0 c vc x v m g,
  following s r0 opts name t0 c vc x v m g first mfile ->
  forall i t d r at_, nth_error (ls_segments v) i = Some (t, d) ->
  for_url r (listed_url v (Z.of_nat i) t) -> hr_range r = None -> admitted limit r at_ -> (0 <= t0)%Q ->
  (t0 <= at_)%Q -> still_there v t d at_ ->
  (* the stored segment that the table puts there *)
  exists j s0 loops, nth_error (table_segs (tg_table g)) j = Some (s0, d) /\
    t = s0 + loops * (v_n vc * v_dur vc) * m_timescale m /\
    forall l, st_files s name (ls_id v) (v_first vc + Z.of_nat j) ".m4s" = Ok (encs l) -> sendable (t - s0) l ->
    exists reply out, fst (application limit s r at_ sid (run limit s history [])) = Ok reply /\
      rp_status reply = 200 /\ rp_body reply = [encs out] /\
      (exists k, (c_segtl c = false -> k = ls_number v + Z.of_nat i) /\
        sent c (mkRep (ls_id v) (ls_type v) (m_timescale m)) k (py_int_of_Q at_) false l out) /\
      forall ts, decodes l (map (fun u => s0 + u) ts) -> decodes out (map (fun u => t + u) ts).
Proof. exact C72_listed_partial_pf. Qed.
(* examples meeting the hypotheses: time_lists_in, time_lists_in2, number_lists_in, time_session, time_following, number_following, C72_listed_case *)
Print Assumptions C72_listed_partial.

(** ** C73: the lists of the Periods.  Every listed segment is complete, and it
    ends in its Period: not before its start and not after the start of the
    next one; so a segment in two lists ends exactly where the later Period
    begins. *)
Theorem C73_inside_partial : forall c e src now x progs period rest b i P v,
  listed_session c now -> 0 < c_seg_dur c -> c_tsbd c = Some b ->
  clean_tables c (me_tables e) (Z.max 0 (now - b - c_ast c)) (now - c_ast c) ->
  x_kids src = (progs ++ period :: rest)%list ->
  Forall (fun y => x_tag y = "ProgramInformation") progs -> x_tag period = "Period" ->
  Forall (fun y => ~ In (x_tag y) ["Period"; "BaseURL"]) rest ->
  (forall A T, In A (children "AdaptationSet" period) -> In T (children "SegmentTemplate" A) ->
     get "presentationTimeOffset" T = None /\ get "media" T = Some "$RepresentationID$/$Number$.m4s") ->
  get_mpd c e src now = Ok x -> nth_error (children "Period" x) i = Some P -> lists_in x P v ->
  forall t d, In (t, d) (ls_segments v) ->
    0 <= ends_after v t d <= (now - c_ast c - ls_period v) * ls_scale v /\
    forall P' z', nth_error (children "Period" x) (S i) = Some P' -> starts_at P' z' ->
      ends_after v t d <= (z' - ls_period v) * ls_scale v.
Proof. exact C73_inside_partial_pf. Qed.
Print Assumptions C73_inside_partial.

(** Every segment of the content that is complete, ends in the Period (after
    its start and not after the next one's) and after the beginning of the time
    shift buffer is listed in it. *)
Theorem C73_complete_partial : forall c e src now x progs period rest b i P v g,
  listed_session c now -> c_etp c <= 0 -> 0 < c_seg_dur c -> c_tsbd c = Some b ->
  clean_tables c (me_tables e) (Z.max 0 (now - b - c_ast c)) (now - c_ast c) ->
  x_kids src = (progs ++ period :: rest)%list ->
  Forall (fun y => x_tag y = "ProgramInformation") progs -> x_tag period = "Period" ->
  Forall (fun y => ~ In (x_tag y) ["Period"; "BaseURL"]) rest ->
  (forall A T, In A (children "AdaptationSet" period) -> In T (children "SegmentTemplate" A) ->
     get "presentationTimeOffset" T = None /\ get "media" T = Some "$RepresentationID$/$Number$.m4s") ->
  get_mpd c e src now = Ok x -> nth_error (children "Period" x) i = Some P -> lists_in x P v ->
  track_table c (me_tables e) (ls_type v) g ->
  forall k t d, 0 <= k -> live_seg g k = (t, d) ->
    0 < ends_after v t d -> (now - b - c_ast c) * ls_scale v < t + d <= (now - c_ast c) * ls_scale v ->
    (forall P', nth_error (children "Period" x) (S i) = Some P' -> exists z', starts_at P' z' /\ ends_after v t d <= (z' - ls_period v) * ls_scale v) ->
    In (t, d) (ls_segments v).
Proof. exact C73_complete_partial_pf. Qed.
(* examples meeting the hypotheses: C73_case *)
Print Assumptions C73_complete_partial.

(** Finding: a segment that ends where a Period begins is listed in both
    Periods, though nothing of it is presented in the later one. *)
Theorem C73_twice_refuted : exists c src now x P P' v v' t d,
  listed_session c now /\ c_etp c <= 0 /\
  get_mpd c tl_env src now = Ok x /\ children "Period" x = [P; P'] /\
  lists_in x P v /\ lists_in x P' v' /\ ls_id v = ls_id v' /\ ls_type v = ls_type v' /\
  In (t, d) (ls_segments v) /\ In (t, d) (ls_segments v') /\ 0 < d /\ ends_after v' t d = 0.
Proof. exact C73_twice_refuted_pf. Qed.
Print Assumptions C73_twice_refuted.
