(** Property theorems; proofs in TimelineTheory.v, where the examples that meet the
    hypotheses stand beside each lemma. Generated by tools/gen_props.py. *)
From Coq Require Import Lqa ZifyBool ZifyNat Lia.
From Verif Require Import Base BaseProofs ConfigModel ProxyModel ProxySpec ProxyProofs ProxyTheory Proxy2Theory.
From Verif Require Import TimelineModel TimelineSpec TimelineProofs.
From Verif Require Import TimelineTheory.
Open Scope Z_scope.

(** A window that touches no run of the table in two turns of the loop: the
    elements expand to the consecutive live segments from [a] to [b], where [b]
    is the last one complete at the window end. *)
Theorem C26_exact_partial : forall g st en sn0, gen_ok g -> 0 <= st -> 0 <= en -> clean_window g st en ->
  let s := st * tg_timescale g in let e := en * tg_timescale g in
  exists a, first_listed g s a /\
  ((create_segtimeline g st en false sn0 = Ok NoTimeline /\ e < live_end g 0)
   \/ exists b, last_complete g e b
      /\ (b < a -> create_segtimeline g st en false sn0 = Ok (Timeline [] sn0))
      /\ (a <= b -> exists l, create_segtimeline g st en false sn0 = Ok (Timeline l (Some a))
                              /\ read_timeline l = live_range g a b)).
Proof. exact C26_exact_partial_pf. Qed.
(* examples meeting the hypotheses: ex_c26 *)
Print Assumptions C26_exact_partial.

(** Such windows: everything inside one turn of the loop. *)
Theorem C26_one_turn : forall g st en, gen_ok g -> 0 <= st ->
  (st * tg_timescale g) / tg_wrap g = (en * tg_timescale g) / tg_wrap g -> clean_window g st en.
Proof. exact C26_one_turn_pf. Qed.
(* examples meeting the hypotheses: ex_one_turn *)
Print Assumptions C26_one_turn.

(** Away from segment boundaries the first segment is the one playing. *)
Theorem C26_first_playing : forall g s a, gen_ok g -> first_listed g s a ->
  (forall k, live_end g k <> s) -> playing g s a.
Proof. exact C26_first_playing_pf. Qed.
(* examples meeting the hypotheses: ex_first_playing *)
Print Assumptions C26_first_playing.

(** With use_closest the listing starts at a segment whose start is at most
    half a segment from the window start, unless the window starts in the
    second half of the last segment of a run. *)
Theorem C26_closest_partial : forall g st en sn0 k, gen_ok g -> 0 <= st -> 0 <= en ->
  let s := st * tg_timescale g in let e := en * tg_timescale g in
  playing g s k ->
  (starts_run g (k + 1) -> s - live_start g k <= (live_end g k - live_start g k) / 2) ->
  exists a, 0 <= a /\ Z.abs (s - live_start g a) <= (live_end g a - live_start g a) / 2 /\
  ((create_segtimeline g st en true sn0 = Ok NoTimeline /\ e < live_end g 0)
   \/ exists b, last_complete g e b
      /\ (b < a -> create_segtimeline g st en true sn0 = Ok (Timeline [] sn0))
      /\ (a <= b -> no_run_twice g a b ->
          exists l, create_segtimeline g st en true sn0 = Ok (Timeline l (Some a))
                              /\ read_timeline l = live_range g a b)).
Proof. exact C26_closest_partial_pf. Qed.
(* examples meeting the hypotheses: ex_closest *)
Print Assumptions C26_closest_partial.

(** Finding: once the window spans the loop boundary, content in a single run
    (such as video) gets a listing with segments that do not exist yet: the
    segments after the boundary are counted twice. *)
Theorem C26_wrap_refuted : exists g st en l sn t d,
  gen_ok g /\ 0 <= st <= en /\ create_segtimeline g st en false None = Ok (Timeline l sn)
  /\ In (t, d) (read_timeline l) /\ en * tg_timescale g < t + d.
Proof. exact C26_wrap_refuted_pf. Qed.
Print Assumptions C26_wrap_refuted.

(** What exactly is listed for single-run content across one loop boundary: as
    many segments too many as the last one is segments after the boundary. *)
Theorem C26_single_run_excess : forall g e st en sn0 a b, gen_ok g -> tg_table g = [e] -> 0 <= st -> 0 <= en ->
  first_listed g (st * tg_timescale g) a -> last_complete g (en * tg_timescale g) b ->
  turn g b = turn g a + 1 -> b mod tg_per_wrap g < a mod tg_per_wrap g ->
  exists l, create_segtimeline g st en false sn0 = Ok (Timeline l (Some a))
            /\ read_timeline l = live_range g a (b + b mod tg_per_wrap g).
Proof. exact C26_single_run_excess_pf. Qed.
(* examples meeting the hypotheses: ex_single_run *)
Print Assumptions C26_single_run_excess.

Theorem C26_long_window_refuted : exists g st en l sn a b,
  gen_ok g /\ 0 <= st <= en /\ (1 < List.length (tg_table g))%nat
  /\ first_listed g (st * tg_timescale g) a /\ last_complete g (en * tg_timescale g) b /\ a <= b
  /\ create_segtimeline g st en false None = Ok (Timeline l sn)
  /\ read_timeline l <> live_range g a b.
Proof. exact C26_long_window_refuted_pf. Qed.
Print Assumptions C26_long_window_refuted.

(** Finding: a window starting exactly at a boundary inside a run starts with
    the segment that has just ended ("starts before or at start" says the
    comment in the code). *)
Theorem C26_boundary_refuted : exists g st en l a t d rest,
  gen_ok g /\ 0 <= st <= en /\ playing g (st * tg_timescale g) a
  /\ create_segtimeline g st en false None = Ok (Timeline l (Some (a - 1)))
  /\ read_timeline l = (t, d) :: rest /\ t + d = st * tg_timescale g.
Proof. exact C26_boundary_refuted_pf. Qed.
Print Assumptions C26_boundary_refuted.

(** Finding: before the first segment is complete there is no element at all
    (a tuple is returned, which the manifest generation cannot insert). *)
Theorem C26_no_segment_refuted : exists g st en,
  gen_ok g /\ 0 <= st <= en /\ create_segtimeline g st en false None = Ok NoTimeline.
Proof. exact C26_no_segment_refuted_pf. Qed.
Print Assumptions C26_no_segment_refuted.

(** Finding: with use_closest, a start in the second half of the last segment
    of a run jumps to the last segment of the next run instead of the first. *)
Theorem C26_closest_refuted : exists g st en l a k,
  gen_ok g /\ 0 <= st <= en /\ playing g (st * tg_timescale g) k
  /\ create_segtimeline g st en true None = Ok (Timeline l (Some a))
  /\ k + 1 < a /\ live_end g (k + 1) <= en * tg_timescale g.
Proof. exact C26_closest_refuted_pf. Qed.
Print Assumptions C26_closest_refuted.

(** Finding: a run of duration 0 makes the search run for ever. *)
Theorem C26_zero_duration_refuted : exists g st en,
  0 <= st <= en /\ create_segtimeline g st en false None = Err "diverges".
Proof. exact C26_zero_duration_refuted_pf. Qed.
Print Assumptions C26_zero_duration_refuted.

(** The listings of two moments (later window start and end): the later one
    starts and ends no earlier, and a segment number in both has the same time
    and duration. *)
Theorem C28_consistent_partial : forall g st1 en1 st2 en2 sn1 sn2 l1 l2 a1 a2,
  gen_ok g -> 0 <= st1 <= st2 -> 0 <= en1 <= en2 -> clean_window g st1 en1 -> clean_window g st2 en2 ->
  create_segtimeline g st1 en1 false sn1 = Ok (Timeline l1 (Some a1)) -> l1 <> [] ->
  create_segtimeline g st2 en2 false sn2 = Ok (Timeline l2 (Some a2)) -> l2 <> [] ->
  a1 <= a2
  /\ a1 + Z.of_nat (List.length (read_timeline l1)) <= a2 + Z.of_nat (List.length (read_timeline l2))
  /\ forall i j x y, a1 + Z.of_nat i = a2 + Z.of_nat j ->
     nth_error (read_timeline l1) i = Some x -> nth_error (read_timeline l2) j = Some y -> x = y.
Proof. exact C28_consistent_partial_pf. Qed.
(* examples meeting the hypotheses: ex_c28 *)
Print Assumptions C28_consistent_partial.

(** Number and time addressing of the listing of a single-period manifest
    without time offset and start number. *)
Theorem C27_served_partial : forall c g now a0 tsbd st en uc sn0 l sn,
  wf_cfg c -> gen_ok g -> on_grid g (c_seg_dur c) ->
  c_start_nr c = 0 -> c_timeoffset c = None -> c_ato c = Some a0 -> (0 <= a0)%Q ->
  c_tsbd c = Some tsbd -> 0 <= tsbd -> c_stop_time c = None -> c_last_nrs c = [] -> c_aet c = None -> c_ast c <= now ->
  segtimeline_window c now 0 None = Ok (st, en, uc) ->
  clean_window g st en ->
  create_segtimeline g st en uc sn0 = Ok (Timeline l sn) ->
  forall i t d, nth_error (read_timeline l) i = Some (t, d) ->
  exists a, sn = Some a /\ let k := a + Z.of_nat i in
    (t, d) = live_seg g k
    /\ (media_request c k -> exists sv, get_media c (inject_Z now) = Ok (Serve sv))
    /\ (c_filename c = ("t" ++ print_nat t ++ ".m4s")%string ->
        get_timescale (c_rel_path c) (c_reps c) = Some (tg_timescale g) -> request_nr c = Ok k).
Proof. exact C27_served_partial_pf. Qed.
(* examples meeting the hypotheses: ex_c27 *)
Print Assumptions C27_served_partial.

(** Finding: after the first loop, the manifest of single-run content lists
    segments that the media server refuses as too early. *)
Theorem C27_wrap_refuted : exists parts now c g st en uc l sn i t d,
  c = ex_tl ["tsbd_60"%string] "604.m4s" 3620 /\ parts = ["tsbd_60"; "testpic"; "V1"; "604.m4s"]%string /\ now = 3620
  /\ gen_ok g /\ on_grid g 6 /\ generator c 90000 (tg_table g) = g
  /\ segtimeline_window c now 0 None = Ok (st, en, uc)
  /\ create_segtimeline g st en uc None = Ok (Timeline l (Some sn))
  /\ nth_error (read_timeline l) i = Some (t, d) /\ sn + Z.of_nat i = 604
  /\ ex_get parts (inject_Z now) = Ok (Refuse RTooEarly).
Proof. exact C27_wrap_refuted_pf. Qed.
Print Assumptions C27_wrap_refuted.

(** Finding: the numbers announced with segtimelinenr_1 ignore snr_N: the
    segment announced as 91 is not the one the server delivers as 91. *)
Theorem C27_start_number_refuted : exists c g now st en uc l sn t d sv,
  c = ex_tl ["tsbd_60"; "snr_50"]%string "91.m4s" 610 /\ gen_ok g /\ on_grid g 6 /\ generator c 90000 (tg_table g) = g /\ now = 610
  /\ segtimeline_window c now 0 None = Ok (st, en, uc)
  /\ create_segtimeline g st en uc None = Ok (Timeline l (Some sn)) /\ sn = 91
  /\ nth_error (read_timeline l) 0 = Some (t, d) /\ t = 91 * 6 * 90000
  /\ request_nr c = Ok 91
  /\ segment_reply c (inject_Z 260) 91 = Ok (Serve sv) /\ sv_time sv = (91 - 50) * 6
  /\ ex_get ["tsbd_60"; "snr_50"; "testpic"; "V1"; "91.m4s"]%string (inject_Z now) = Ok (Refuse RTooLate).
Proof. exact C27_start_number_refuted_pf. Qed.
Print Assumptions C27_start_number_refuted.

(** Finding: with a time offset the listed times are still relative to the
    availability start time, and the server refuses them. *)
Theorem C27_timeoffset_refuted : exists c g now st en uc l sn t d,
  c = ex_tl ["start_600"; "timeoffset_300"]%string "t0.m4s" 640 /\ gen_ok g /\ on_grid g 6 /\ generator c 90000 (tg_table g) = g /\ now = 640
  /\ segtimeline_window c now 0 None = Ok (st, en, uc)
  /\ create_segtimeline g st en uc None = Ok (Timeline l (Some sn))
  /\ nth_error (read_timeline l) 0 = Some (t, d) /\ t = 0
  /\ ex_get ["start_600"; "timeoffset_300"; "testpic"; "V1"; "t0.m4s"]%string (inject_Z now) = Ok (Refuse RBeforeFirst).
Proof. exact C27_timeoffset_refuted_pf. Qed.
Print Assumptions C27_timeoffset_refuted.
