(** Property theorems; proofs in StepTheory.v, where the examples that meet the
    hypotheses stand beside each lemma. Generated by tools/gen_props.py. *)
From Coq Require Import Permutation ZifyBool ZifyNat.
From Verif Require Import Base BaseProofs BytesModel BytesProofs StrModel BoxSpec Mp4Model Mp4Proofs ConfigModel ConfigProofs
  ProxyModel ProxySpec ProxyTheory MediaSpec MediaTheory HttpModel HttpSpec HttpTheory EndSpec EndTheory CacheProofs Mpd2Spec
  VodModel VodSpec VodTheory StepSpec StepProofs.
From Verif Require Import StepTheory.
Local Open Scope string_scope.
Open Scope Z_scope.

(** In any session: a reply with one representation is the segment of the loop
    that the time asks for, and it ends less than 0.1 s off the grid. *)
Theorem C75_grid : forall limit s name base sets cfg ms r ts default l x0 rest rq now sid history c rep n down rp,
  site_ok s -> published s name base sets cfg ms -> stream s name sets cfg ms r ts default l -> l = x0 :: rest ->
  admitted limit rq now -> hr_range rq = None ->
  provider_config s rq now = Ok c -> c_ext c = ".m4s" -> not_chunked c -> request_nr c = Ok n ->
  c_content_name c = name -> c_rel_path c = vr_id r -> c_reps c = [rep] -> rep_id rep = vr_id r ->
  going_down c (py_int_of_Q now) down ->
  fst (application limit s rq now sid (run limit s history [])) = Ok rp -> rp_status rp = 200 ->
  let d := vd_duration cfg in let i := media_start c n / d in
  exists x, nth_error l (Z.to_nat (i mod vd_n cfg)) = Some x /\
    let t := s_start x + i / vd_n cfg * (vd_n cfg * d) * ts in
    replied rp default t (s_dur x) /\ 10 * Z.abs (s_start x0 + (i + 1) * d * ts - (t + s_dur x)) < ts.
Proof. exact C75_grid_pf. Qed.
Print Assumptions C75_grid.

(** Segments of the same number end together in all representations: counted
    from the start of the representation, less than 0.2 s apart, however long the
    stream runs. *)
Theorem C75_in_step_partial : forall limit s name base sets cfg ms r1 ts1 default1 l1 x1 rest1 r2 ts2 default2 l2 x2 rest2 n rp1 rp2,
  site_ok s -> published s name base sets cfg ms ->
  stream s name sets cfg ms r1 ts1 default1 l1 -> l1 = x1 :: rest1 -> url_names name (vr_id r1) ->
  stream s name sets cfg ms r2 ts2 default2 l2 -> l2 = x2 :: rest2 -> url_names name (vr_id r2) ->
  0 <= n -> fetched limit s name (vr_id r1) n rp1 -> fetched limit s name (vr_id r2) n rp2 ->
  exists t1 d1 t2 d2, replied rp1 default1 t1 d1 /\ replied rp2 default2 t2 d2 /\
    10 * Z.abs ((t1 + d1 - s_start x1) * ts2 - (t2 + d2 - s_start x2) * ts1) < 2 * (ts1 * ts2).
Proof. exact C75_in_step_partial_pf. Qed.
Print Assumptions C75_in_step_partial.

(** Where content is contiguous, segment n + 1 begins where segment n ended;
    where the loop begins again, less than 0.1 s from there. *)
Theorem C75_joint : forall limit s name base sets cfg ms r ts default l n rp1 rp2,
  site_ok s -> published s name base sets cfg ms -> stream s name sets cfg ms r ts default l -> contiguous l ->
  url_names name (vr_id r) -> 0 <= n -> fetched limit s name (vr_id r) n rp1 -> fetched limit s name (vr_id r) (n + 1) rp2 ->
  exists t1 d1 t2 d2, replied rp1 default t1 d1 /\ replied rp2 default t2 d2 /\
    ((n + 1) mod vd_n cfg <> 0 -> t2 = t1 + d1) /\ 10 * Z.abs (t2 - (t1 + d1)) < ts.
Proof. exact C75_joint_pf. Qed.
(* examples meeting the hypotheses: C75_grid_case, C75_in_step_partial_case, C75_joint_case *)
Print Assumptions C75_joint.

Theorem C75_start_refuted : exists s name base sets cfg ms r1 ts1 default1 l1 r2 ts2 default2 l2 n rp1 rp2 t1 d1 t2 d2,
  site_ok s /\ published s name base sets cfg ms /\
  stream s name sets cfg ms r1 ts1 default1 l1 /\ url_names name (vr_id r1) /\
  stream s name sets cfg ms r2 ts2 default2 l2 /\ url_names name (vr_id r2) /\
  fetched 0 s name (vr_id r1) n rp1 /\ fetched 0 s name (vr_id r2) n rp2 /\
  replied rp1 default1 t1 d1 /\ replied rp2 default2 t2 d2 /\
  100 * (ts1 * ts2) <= Z.abs ((t1 + d1) * ts2 - (t2 + d2) * ts1).
Proof. exact C75_start_refuted_pf. Qed.
Print Assumptions C75_start_refuted.

Theorem C75_missing_refuted : exists s name base sets cfg ms r1 r2 ts default l1 l2 rq n now rp rp1,
  site_ok s /\ published s name base sets cfg ms /\
  stream s name sets cfg ms r1 ts default l1 /\ stream s name sets cfg ms r2 ts default l2 /\
  fetched 0 s name (vr_id r1) n rp1 /\ hr_path rq = segment_path "livesim" name (vr_id r2) n /\ hr_range rq = None /\
  (inject_Z ((n + 1) * vd_duration cfg) <= now <= inject_Z ((n + 2) * vd_duration cfg + vd_tsbd cfg))%Q /\
  fst (application 0 s rq now "" (run 0 s [] [])) = Ok rp /\ rp_status rp = 404.
Proof. exact C75_missing_refuted_pf. Qed.
Print Assumptions C75_missing_refuted.
