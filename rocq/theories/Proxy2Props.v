(** Property theorems; proofs in Proxy2Theory.v, where the examples that meet the
    hypotheses stand beside each lemma. Generated by tools/gen_props.py. *)
From Coq Require Import Lqa ZifyBool ZifyNat Sorted.
From Verif Require Import Base BaseProofs ConfigModel ProxyModel ProxySpec ProxyProofs ProxyTheory.
From Verif Require Import Proxy2Theory.
Open Scope Z_scope.

(** Without time offset and stop time a thumbnail is served exactly when the media
    segment of the same number is within its window, from the same loop position. *)
Theorem C55_thumbnail_like_media_partial : forall c n now,
  wf_cfg c -> c_timeoffset c = None -> c_stop_time c = None ->
  (available c n now ->
     thumbnail_reply c now n =
       Ok (Serve (mkServed (c_vod_first c + loop_index c (media_start c n)) n
                           (loop_start c (media_start c n)) false (media_start c n) false))) /\
  (~ available c n now -> forall sv, thumbnail_reply c now n <> Ok (Serve sv)).
Proof. exact C55_thumbnail_like_media_partial_pf. Qed.
(* examples meeting the hypotheses: ex_thumb *)
Print Assumptions C55_thumbnail_like_media_partial.

(** Finding: a refusal of a thumbnail is never an error reply, it raises (the
    error helper is called with one argument too few). *)
Theorem C55_thumbnail_refusal_raises : forall c n now,
  wf_cfg c ->
  (exists sv, thumbnail_reply c now n = Ok (Serve sv)) \/
  thumbnail_reply c now n = Err "TypeError: error_response".
Proof. exact C55_thumbnail_refusal_raises_pf. Qed.
Print Assumptions C55_thumbnail_refusal_raises.

(** The claim "refused with a proper error response" is false. *)
Theorem C55_thumbnail_error_reply_refuted : exists c now,
  wf_cfg c /\ c_ext c = ".jpg"%string /\ c_reps c <> [] /\ request_nr c = Ok 100 /\
  ~ available c 100 now /\ get_media c now = Err "TypeError: error_response".
Proof. exact C55_thumbnail_error_reply_refuted_pf. Qed.
Print Assumptions C55_thumbnail_error_reply_refuted.

(** With a time offset the two address different media: thumbnails ignore it. *)
Theorem C55_thumbnail_timeoffset_refuted : exists parts1 parts2 now sv,
  parts1 = ["start_600"; "timeoffset_300"; "testpic"; "V1"; "60.m4s"]%string /\
  parts2 = ["start_600"; "timeoffset_300"; "testpic"; "V1"; "60.jpg"]%string /\
  ex_get parts1 now = Ok (Serve sv) /\
  ex_get parts2 now = Err "TypeError: error_response".
Proof. exact C55_thumbnail_timeoffset_refuted_pf. Qed.
Print Assumptions C55_thumbnail_timeoffset_refuted.

(** baseurl_uX_dY: refused exactly in the down seconds of the minute, otherwise
    handled normally (with an extra event message in the last up second). *)
Theorem C49_up_down : forall c now u X Y,
  session_open c now -> c_multi_url c = [u] ->
  parse_updown u = Ok (("u"%char, X), ("d"%char, Y)) ->
  0 <= X -> 0 <= Y -> 0 < X + Y ->
  let m := py_int_of_Q now mod 60 in
  (ud_is_down X Y m -> get_media c now = Ok (Refuse RServerDown)) /\
  (~ ud_is_down X Y m ->
     let last_up := X <= m /\ (X + Y | m - X) in
     (~ last_up -> get_media c now = process_media_segment c now) /\
     (last_up -> forall r, process_media_segment (set_emsg_last true c) now = Ok r ->
                 get_media c now = Ok r)).
Proof. exact C49_up_down_pf. Qed.
(* examples meeting the hypotheses: ex_ud *)
Print Assumptions C49_up_down.

(** baseurl_dX_uY. *)
Theorem C49_down_up : forall c now u X Y,
  session_open c now -> c_multi_url c = [u] ->
  parse_updown u = Ok (("d"%char, X), ("u"%char, Y)) ->
  0 <= X -> 0 <= Y -> 0 < X + Y ->
  let m := py_int_of_Q now mod 60 in
  (du_is_down X Y m -> get_media c now = Ok (Refuse RServerDown)) /\
  (~ du_is_down X Y m -> get_media c now = process_media_segment c now).
Proof. exact C49_down_up_pf. Qed.
(* examples meeting the hypotheses: ex_du *)
Print Assumptions C49_down_up.

(** Finding: second 0 of every minute is never down, so when Y > 0 and X + Y
    divides 60 the down interval that ends on the minute lasts Y - 1 seconds only:
    the announced schedule (Y seconds down per period) is violated. *)
Theorem C49_minute_wrap_refuted : exists X Y,
  0 < X /\ 0 < Y /\ (X + Y | 60) /\
  (forall m, 1 <= m <= 60 -> ~ ud_is_down X Y m -> (m - 1) mod (X + Y) < X) /\
  ud_is_down X Y 60 /\ ~ ud_is_down X Y (60 mod 60).
Proof. exact C49_minute_wrap_refuted_pf. Qed.
(* examples meeting the hypotheses: ex_ud_minute *)
Print Assumptions C49_minute_wrap_refuted.

(** The decision, source number, offset and lmsg flag do not depend on the list of
    representations: only the numbers matter. *)
Theorem C57_mux_same_timing_partial : forall c dir l now n,
  request_nr c = Ok n -> request_nr (set_rel_path dir (set_reps l c)) = Ok n ->
  c_reps c <> [] -> l <> [] ->
  get_media (set_rel_path dir (set_reps l c)) now = get_media c now.
Proof. exact C57_mux_same_timing_partial_pf. Qed.
(* examples meeting the hypotheses: ex_mux *)
Print Assumptions C57_mux_same_timing_partial.

(** Finding: time-addressed requests for multiplexed representations always raise
    (no timescale is found for the joint directory name). *)
Theorem C57_mux_time_addressing_refuted : exists parts now sv,
  ex_get ["testpic"; "V1"; "t54000000.m4s"]%string now = Ok (Serve sv) /\
  parts = ["testpic"; "V1__A1"; "t54000000.m4s"]%string /\ ex_get parts now = Err "TypeError".
Proof. exact C57_mux_time_addressing_refuted_pf. Qed.
Print Assumptions C57_mux_time_addressing_refuted.

(** A request t<T>.m4s with T within half a segment of the nominal start of
    segment k names segment k. *)
Theorem C29_time_addressing : forall c T k ts,
  0 <= T -> c_filename c = ("t" ++ print_nat T ++ ".m4s")%string ->
  get_timescale (c_rel_path c) (c_reps c) = Some ts ->
  0 < c_seg_dur c -> 0 < ts ->
  Z.abs (2 * T - 2 * k * c_seg_dur c * ts) < c_seg_dur c * ts ->
  request_nr c = Ok k.
Proof. exact C29_time_addressing_pf. Qed.
(* examples meeting the hypotheses: ex_time *)
Print Assumptions C29_time_addressing.

(** The number form n.m4s names n. *)
Theorem C29_number_addressing : forall c n, 0 <= n ->
  c_filename c = (print_nat n ++ ".m4s")%string -> request_nr c = Ok n.
Proof. exact C29_number_addressing_pf. Qed.
Print Assumptions C29_number_addressing.
