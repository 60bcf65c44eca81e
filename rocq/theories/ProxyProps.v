(** Property theorems; proofs in ProxyTheory.v, where the examples that meet the
    hypotheses stand beside each lemma. Generated by tools/gen_props.py. *)
From Coq Require Import Lqa ZifyBool ZifyNat.
From Verif Require Import Base BaseProofs ConfigModel ProxyModel ProxySpec ProxyProofs.
From Verif Require Import ProxyTheory.
Open Scope Z_scope.

Theorem C01_media_window_exact : forall c n now a b,
  wf_cfg c -> media_request c n -> c_ato c = Some a -> c_tsbd c = Some b ->
  c_stop_time c = None -> c_last_nrs c = [] -> c_aet c = None ->
  ((exists sv, get_media c now = Ok (Serve sv)) <->
   (first_nr c <= n /\
    (inject_Z (c_ast c + (n - first_nr c + 1) * c_seg_dur c) - a <= now)%Q /\
    (now <= inject_Z (c_ast c + (n - first_nr c + 2) * c_seg_dur c + b))%Q)) /\
  ((forall sv, get_media c now <> Ok (Serve sv)) ->
   exists r, get_media c now = Ok (Refuse r)).
Proof. exact C01_media_window_exact_pf. Qed.
Print Assumptions C01_media_window_exact.

(** ** C02: no flapping.  For one configuration the times at which a segment is
    served form an interval. *)
Theorem C02_served_times_convex : forall c n t1 t2 t3 sv1 sv3,
  wf_cfg c -> media_request c n -> (t1 <= t2)%Q -> (t2 <= t3)%Q ->
  get_media c t1 = Ok (Serve sv1) -> get_media c t3 = Ok (Serve sv3) ->
  get_media c t2 = Ok (Serve sv1) /\ sv3 = sv1.
Proof. exact C02_served_times_convex_pf. Qed.
Print Assumptions C02_served_times_convex.

(** Consequently a segment that has been served and then refused stays refused. *)
Theorem C02_refused_for_good : forall c n t1 t2 t3 sv1 r,
  wf_cfg c -> media_request c n -> (t1 <= t2)%Q -> (t2 <= t3)%Q ->
  get_media c t1 = Ok (Serve sv1) -> get_media c t2 = Ok (Refuse r) ->
  exists r', get_media c t3 = Ok (Refuse r').
Proof. exact C02_refused_for_good_pf. Qed.
Print Assumptions C02_refused_for_good.

(** ** C03: infinite availability time offset. *)
Theorem C03_ato_inf : forall c n now,
  wf_cfg c -> media_request c n -> c_ato c = None ->
  c_stop_time c = None -> c_last_nrs c = [] -> c_aet c = None ->
  ((exists sv, get_media c now = Ok (Serve sv)) <->
   ((inject_Z (c_ast c) <= now)%Q /\ first_nr c <= n)).
Proof. exact C03_ato_inf_pf. Qed.
(* examples meeting the hypotheses: ex_inf_ok *)
Print Assumptions C03_ato_inf.

Theorem C04_start_number_relabels_partial : forall c1 c2 n k now,
  wf_cfg c1 -> wf_cfg c2 -> relabelled c1 c2 k ->
  media_request c1 n -> media_request c2 (n + k) ->
  (exists sv, get_media c1 now = Ok (Serve sv) /\
              get_media c2 now = Ok (Serve (relabel_served k sv))) \/
  (exists r1 r2, get_media c1 now = Ok (Refuse r1) /\ get_media c2 now = Ok (Refuse r2)).
Proof. exact C04_start_number_relabels_partial_pf. Qed.
(* examples meeting the hypotheses: ex_relabel, ex_relabelled *)
Print Assumptions C04_start_number_relabels_partial.

(** ** C07: nothing after availabilityEndTime + 60 s (media or thumbnails). *)
Theorem C07_nothing_after_end : forall c now e sv,
  c_aet c = Some e -> (e + 60 < inject_Z (py_int_of_Q now))%Q ->
  get_media c now <> Ok (Serve sv).
Proof. exact C07_nothing_after_end_pf. Qed.
Print Assumptions C07_nothing_after_end.

(** ... and the answer is a proper error reply for media and thumbnail names. *)
Theorem C07_error_after_end : forall c now e,
  c_aet c = Some e -> (e + 60 < inject_Z (py_int_of_Q now))%Q ->
  c_ext c = ".m4s"%string \/ c_ext c = ".jpg"%string ->
  exists r, get_media c now = Ok (Refuse r).
Proof. exact C07_error_after_end_pf. Qed.
(* examples meeting the hypotheses: ex_after_end *)
Print Assumptions C07_error_after_end.

(** ** C08: init segments. *)
Theorem C08_init_exact : forall c now,
  c_ext c = ".mp4"%string -> (List.length (c_reps c) = 1 \/ List.length (c_reps c) = 2)%nat ->
  get_init c now = Ok (c_ast c - c_init_off c <=? py_int_of_Q now).
Proof. exact C08_init_exact_pf. Qed.
Print Assumptions C08_init_exact.

(** For request times after the epoch, "the whole second is >= AST - offset" is the same as
    "the time is >= AST - offset", and availability is permanent. *)
Theorem C08_init_permanent : forall c t1 t2,
  c_ext c = ".mp4"%string -> (t1 <= t2)%Q ->
  get_init c t1 = Ok true -> get_init c t2 = Ok true.
Proof. exact C08_init_permanent_pf. Qed.
Print Assumptions C08_init_permanent.

Theorem C08_init_real_time : forall c now,
  c_ext c = ".mp4"%string -> (List.length (c_reps c) = 1 \/ List.length (c_reps c) = 2)%nat ->
  (0 <= now)%Q ->
  (get_init c now = Ok true <-> (inject_Z (c_ast c - c_init_off c) <= now)%Q).
Proof. exact C08_init_real_time_pf. Qed.
(* examples meeting the hypotheses: ex_init *)
Print Assumptions C08_init_real_time.

(** Source file and offset used for number [n] whenever [n] is served. *)
Theorem C09_source_segment : forall c n now sv,
  wf_cfg c -> media_request c n -> get_media c now = Ok (Serve sv) ->
  exists loops,
    c_vod_first c <= sv_vod sv < c_vod_first c + c_vod_n c /\
    sv_offset sv = loops * (c_seg_dur c * c_vod_n c) /\
    sv_time sv = media_start c n /\
    0 <= sv_time sv - (sv_offset sv + (sv_vod sv - c_vod_first c) * c_seg_dur c) < c_seg_dur c /\
    sv_nr sv = n.
Proof. exact C09_source_segment_pf. Qed.
Print Assumptions C09_source_segment.

(** Consecutive numbers use cyclically consecutive files, with period N, and a
    wrap advances the offset by exactly one loop. *)
Theorem C09_consecutive : forall c n t1 t2 c2 s1 s2,
  wf_cfg c -> wf_cfg c2 -> media_request c n -> media_request c2 (n + 1) ->
  c_seg_dur c2 = c_seg_dur c -> c_vod_n c2 = c_vod_n c -> c_vod_first c2 = c_vod_first c ->
  c_ast c2 = c_ast c -> c_timeoffset c2 = c_timeoffset c -> c_start_nr c2 = c_start_nr c ->
  get_media c t1 = Ok (Serve s1) -> get_media c2 t2 = Ok (Serve s2) ->
  sv_time s2 = sv_time s1 + c_seg_dur c /\
  ((sv_vod s2 = sv_vod s1 + 1 /\ sv_offset s2 = sv_offset s1) \/
   (sv_vod s1 = c_vod_first c + c_vod_n c - 1 /\ sv_vod s2 = c_vod_first c /\
    sv_offset s2 = sv_offset s1 + c_seg_dur c * c_vod_n c)).
Proof. exact C09_consecutive_pf. Qed.
Print Assumptions C09_consecutive.

(** Within one loop (time offset a multiple of the segment duration) the map from
    numbers to files is a bijection onto the N files: file [v] serves exactly the
    numbers congruent to it. *)
Theorem C09_bijection : forall c n v,
  wf_cfg c -> (c_seg_dur c | media_time_at_ast c) ->
  c_vod_first c <= v < c_vod_first c + c_vod_n c ->
  (c_vod_first c + loop_index c (media_start c n) = v <->
   exists k, n - first_nr c + media_time_at_ast c / c_seg_dur c
             = k * c_vod_n c + (v - c_vod_first c)).
Proof. exact C09_bijection_pf. Qed.
(* examples meeting the hypotheses: ex_loop *)
Print Assumptions C09_bijection.
