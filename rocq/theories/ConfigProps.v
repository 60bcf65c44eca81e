(** Property theorems; proofs in ConfigTheory.v, where the examples that meet the
    hypotheses stand beside each lemma. Generated by tools/gen_props.py. *)
From Coq Require Import Lqa ZifyBool ZifyNat.
From Verif Require Import Base BaseProofs ConfigModel ProxyModel ProxySpec ProxyProofs ProxyTheory Proxy2Theory ConfigProofs.
From Verif Require Import ConfigTheory.
Open Scope Z_scope.

(** AST is the largest multiple of d not above a, the stop time the smallest
    multiple of d not below b, and the advertised duration their difference. *)
Theorem C05_start_stop_times : forall now parts pos v u c a b,
  start_stop_state u a b -> 0 < v_dur v <= 1000 -> 0 <= b ->
  finish_url now parts pos v u = Ok c ->
  let d := v_dur v in
  exists st,
    (c_ast c <= a < c_ast c + d /\ (d | c_ast c)) /\
    (st - d < b <= st /\ (d | st)) /\
    c_stop_time c = Some st /\ c_mpdur c = Some (inject_Z (st - c_ast c)) /\
    c_aet c = None /\ c_last_nrs c = [].
Proof. exact C05_start_stop_times_pf. Qed.
Print Assumptions C05_start_stop_times.

Theorem C05_start_stop_segments_partial : forall c n now st ato,
  wf_cfg c -> media_request c n -> c_stop_time c = Some st -> c_aet c = None ->
  c_last_nrs c = [] -> c_timeoffset c = None -> 0 <= c_start_nr c ->
  c_mpdur c = Some (inject_Z (st - c_ast c)) ->
  (c_seg_dur c | c_ast c) -> (c_seg_dur c | st) -> c_ast c < st ->
  c_ato c = Some ato ->
  ((exists sv, get_media c now = Ok (Serve sv)) <->
   (c_start_nr c <= n < c_start_nr c + (st - c_ast c) / c_seg_dur c /\
    (inject_Z (c_ast c + (n - c_start_nr c + 1) * c_seg_dur c) - ato <= now)%Q)).
Proof. exact C05_start_stop_segments_partial_pf. Qed.
(* examples meeting the hypotheses: ex_start_stop *)
Print Assumptions C05_start_stop_segments_partial.

(** The request for segment [n] of a start/stop session at URL level. *)
Theorem C05_start_stop_url_partial : forall read base name rp ct m v a b n now,
  read name = Ok v -> plain_name name -> split_dunder rp = [rp] ->
  content_type_for_rep (v_media v) rp = Some (ct, m) ->
  0 < v_dur v <= 1000 -> 0 < v_n v -> 0 <= a -> a < b -> 0 <= n -> (0 <= now)%Q ->
  let d := v_dur v in
  let start := a / d * d in               (* a rounded down *)
  let stop := - ((- b) / d) * d in        (* b rounded up *)
  let url := (media_parts [("start", print_Z a); ("stop", print_Z b)] name rp
                (print_nat n ++ ".m4s"))%string in
  (exists sv, request read base url now = Ok (Serve sv)) <->
  (n < (stop - start) / d /\ (inject_Z (start + (n + 1) * d) <= now)%Q).
Proof. exact C05_start_stop_url_partial_pf. Qed.
(* examples meeting the hypotheses: ex_start_stop_url *)
Print Assumptions C05_start_stop_url_partial.

(** Finding: snr_-1 (start number left out of the MPD, i.e. 1): the stop number is
    computed from -1, so the last two segments of the session are refused. *)
Theorem C05_snr_default_refuted : exists parts now,
  parts = ["snr_-1"; "start_600"; "stop_660"; "testpic"; "V1"; "9.m4s"]%string /\
  (* numbers 1..10 are the ten segments of the session *)
  ex_get parts now = Ok (Refuse RBeyondStop) /\
  ex_get ["snr_1"; "start_600"; "stop_660"; "testpic"; "V1"; "9.m4s"]%string now
    = Ok (Serve (mkServed 9 9 0 false 48 false)).
Proof. exact C05_snr_default_refuted_pf. Qed.
Print Assumptions C05_snr_default_refuted.

(** Finding: an empty session (start = stop) with start number 0 has stop number 0,
    which the code takes for "no stop": its segments are served. *)
Theorem C05_empty_session_refuted : exists now sv,
  ex_get ["start_600"; "stop_600"; "testpic"; "V1"; "5.m4s"]%string now = Ok (Serve sv).
Proof. exact C05_empty_session_refuted_pf. Qed.
Print Assumptions C05_empty_session_refuted.

(** Finding: for segment durations above 1000 s the stop time is not rounded up. *)
Theorem C05_long_segments_refuted : exists b d,
  0 <= b /\ 0 < d /\
  py_int_of_Q (inject_Z b + (999#1000) * inject_Z d)%Q / d * d < b.
Proof. exact C05_long_segments_refuted_pf. Qed.
Print Assumptions C05_long_segments_refuted.

(** The last number is fixed by the total duration, whatever the time of the request. *)
Theorem C06_last_number_partial : forall now parts pos v u c a durs,
  dur_state u a durs -> 0 < v_dur v ->
  finish_url now parts pos v u = Ok c ->
  let d := v_dur v in
  let total := fold_right Z.add 0 durs in
  c_ast c = a / d * d /\
  c_last_nrs c = [inject_Z (((a + total) / d * d - a / d * d) / d - 1)] /\
  c_stop_time c = None.
Proof. exact C06_last_number_partial_pf. Qed.
Print Assumptions C06_last_number_partial.

(** Nothing beyond the last number is served, and lmsg marks exactly that number. *)
Theorem C06_last_segment_partial : forall c n now L sv,
  wf_cfg c -> media_request c n -> c_last_nrs c = [inject_Z L] ->
  get_media c now = Ok (Serve sv) ->
  n <= L /\ (sv_lmsg sv = true <-> n = L).
Proof. exact C06_last_segment_partial_pf. Qed.
(* examples meeting the hypotheses: ex_dur_session *)
Print Assumptions C06_last_segment_partial.

Theorem C06_duration_url_partial : forall read base name rp ct m v a T n now sv,
  read name = Ok v -> plain_name name -> split_dunder rp = [rp] ->
  content_type_for_rep (v_media v) rp = Some (ct, m) ->
  0 < v_dur v -> 0 < v_n v -> 0 <= n ->
  let d := v_dur v in
  let url := (media_parts [("snr", print_Z 0); ("start", print_Z a); ("dur", print_Z T)] name rp
                (print_nat n ++ ".m4s"))%string in
  request read base url now = Ok (Serve sv) ->
  n < ((a + T) / d * d - a / d * d) / d.
Proof. exact C06_duration_url_partial_pf. Qed.
Print Assumptions C06_duration_url_partial.

(** Finding: the last number ignores the start number.  With snr_10 and ten segments
    of duration the session has no segment at all. *)
Theorem C06_start_number_refuted : exists s T d,
  0 <= s /\ 0 < T /\ d = v_dur ex_vod /\
  forall n now sv, 0 <= n ->
    request ex_read "http://h/"
      (media_parts [("snr", print_Z s); ("start", print_Z 600); ("dur", print_Z T)] "testpic" "V1"
         (print_nat n ++ ".m4s"))%string now <> Ok (Serve sv).
Proof. exact C06_start_number_refuted_pf. Qed.
Print Assumptions C06_start_number_refuted.
