(** Property theorems; proofs in Config2Theory.v, where the examples that meet the
    hypotheses stand beside each lemma. Generated by tools/gen_props.py. *)
From Coq Require Import Lqa ZifyBool ZifyNat.
From Verif Require Import Base BaseProofs ConfigModel ProxyModel ProxySpec ProxyProofs ProxyTheory Proxy2Theory ConfigProofs ConfigTheory.
From Verif Require Import Config2Theory.
Open Scope Z_scope.

(** The session limits: the latest multiple of 3 h not after the request time, and 3 h
    later. *)
Theorem C16_tfdt32_session : forall now parts pos v u c,
  tfdt_state u -> 0 < v_dur v ->
  finish_url now parts pos v u = Ok c ->
  (c_ast c <= now < c_ast c + 10800 /\ (10800 | c_ast c)) /\
  c_aet c = Some (inject_Z (c_ast c + 10800)) /\
  c_mpdur c = Some (inject_Z 10800) /\ c_tfdt32 c = true.
Proof. exact C16_tfdt32_session_pf. Qed.
Print Assumptions C16_tfdt32_session.

(** Every segment served in the session has a decode time of 32 bits, as long as 3 h
    (plus the availability offset) of ticks fit. *)
Theorem C16_tfdt32_fits : forall now parts pos v u c n sv a ts,
  tfdt_state u -> 0 < v_dur v -> 0 < v_n v -> (0 <= now)%Q -> 0 < ts ->
  finish_url (py_int_of_Q now) parts pos v u = Ok c ->
  media_request c n -> c_ato c = Some a ->
  ((inject_Z 10800 + a) * inject_Z ts <= inject_Z (2 ^ 32))%Q ->
  get_media c now = Ok (Serve sv) ->
  0 <= sv_time sv * ts /\ (sv_time sv + c_seg_dur c) * ts < 2 ^ 32.
Proof. exact C16_tfdt32_fits_pf. Qed.
(* examples meeting the hypotheses: ex_tfdt32 *)
Print Assumptions C16_tfdt32_fits.

(** AST is the multiple of d with AST + d <= now < AST + 2d: at every request time the
    first segment (and only it) is available. *)
Theorem C17_cont_one_segment : forall now parts pos v u c,
  cont_state u -> 0 < v_dur v <= 5400 -> 0 < v_n v -> 0 <= v_tsbd v -> (0 <= now)%Q ->
  (forall b, c_tsbd (u_cfg u) = Some b -> 0 <= b) ->
  finish_url (py_int_of_Q now) parts pos v u = Ok c ->
  let d := v_dur v in
  ((d | c_ast c) /\ (inject_Z (c_ast c + d) <= now < inject_Z (c_ast c + 2 * d))%Q) /\
  c_aet c = Some (inject_Z (c_ast c + 10800)) /\
  (forall n, media_request c n ->
     ((exists sv, get_media c now = Ok (Serve sv)) <-> n = first_nr c)).
Proof. exact C17_cont_one_segment_pf. Qed.
(* examples meeting the hypotheses: ex_cont *)
Print Assumptions C17_cont_one_segment.

Theorem C18_announced_end_partial : forall now parts pos v u c a durs,
  dur_state u a durs -> 0 < v_dur v -> Forall (fun x => 0 <= x) durs ->
  finish_url now parts pos v u = Ok c ->
  let mup := match c_mup (u_cfg u) with None => inject_Z 10 | Some m => m end in
  exists et dur, announced a (v_dur v) mup durs now et dur /\
    c_aet c = Some (inject_Z et) /\ c_mpdur c = option_map inject_Z dur.
Proof. exact C18_announced_end_partial_pf. Qed.
(* examples meeting the hypotheses: ex_announced *)
Print Assumptions C18_announced_end_partial.

(** The announced end never moves back as time passes. *)
Theorem C18_announced_end_monotone : forall a d mup durs now1 now2 et1 dur1 et2 dur2,
  0 < d -> Forall (fun x => 0 <= x) durs -> durs <> [] -> now1 <= now2 ->
  announced a d mup durs now1 et1 dur1 -> announced a d mup durs now2 et2 dur2 ->
  et1 <= et2.
Proof. exact C18_announced_end_monotone_pf. Qed.
(* examples meeting the hypotheses: ex_announced_two *)
Print Assumptions C18_announced_end_monotone.

(** Finding: from two update periods before the end on, no mediaPresentationDuration is
    announced any more, although the end time is. *)
Theorem C18_duration_dropped_refuted : exists now c,
  ex_cfg ["start_60"; "dur_60"; "testpic"; "V1"; "1.m4s"]%string now = Ok c /\
  now < 60 + 60 /\ c_aet c = Some (inject_Z 120) /\ c_mpdur c = None.
Proof. exact C18_duration_dropped_refuted_pf. Qed.
Print Assumptions C18_duration_dropped_refuted.

Theorem C19_modulo_table : forall x now m, 1 <= x ->
  modulo_init x now = Ok m ->
  let M := 60 * x in
  exists P r, now = P + r /\ 0 <= r < M /\ (M | P) /\
    modulo_row x P r (mo_ast m) (mo_mpdur m) /\
    (mo_mup m == inject_Z M * (5#100))%Q /\
    (mo_aet m == inject_Z (mo_ast m) + mo_mpdur m + mo_mup m)%Q.
Proof. exact C19_modulo_table_pf. Qed.
(* examples meeting the hypotheses: ex_modulo *)
Print Assumptions C19_modulo_table.

(** Within one interval (as long as the same AST is announced) the announced duration,
    and with it the end time, only grows; the next interval's end is later still. *)
Theorem C19_modulo_end_monotone : forall x now1 now2 m1 m2, 1 <= x -> now1 <= now2 ->
  modulo_init x now1 = Ok m1 -> modulo_init x now2 = Ok m2 ->
  (mo_aet m1 <= mo_aet m2)%Q.
Proof. exact C19_modulo_end_monotone_pf. Qed.
(* examples meeting the hypotheses: ex_modulo_two *)
Print Assumptions C19_modulo_end_monotone.

(** Finding: segments beyond the announced presentation duration are served (until 60 s
    after the end time), because the last number is counted from the epoch while the
    segment numbers start at the AST. *)
Theorem C20_modulo_end_refuted : exists now c sv,
  ex_cfg ["modulo_10"; "testpic"; "V1"; "85.m4s"]%string (py_int_of_Q now) = Ok c /\
  c_mpdur c = Some (inject_Z (8 * 600) / 10)%Q /\
  get_media c now = Ok (Serve sv) /\
  sv_time sv = 85 * 6 /\ 480 <= sv_time sv /\ sv_lmsg sv = false.
Proof. exact C20_modulo_end_refuted_pf. Qed.
Print Assumptions C20_modulo_end_refuted.

(** What does hold: the MPD values are those of the schedule, nothing is served later
    than a minute after the announced end. *)
Theorem C20_modulo_session_partial : forall now parts pos v u c m n sv x,
  modulo_state u m -> 0 < v_dur v -> 0 < v_n v -> (0 <= now)%Q -> 1 <= x ->
  modulo_init x (py_int_of_Q now) = Ok m ->
  finish_url (py_int_of_Q now) parts pos v u = Ok c ->
  media_request c n -> get_media c now = Ok (Serve sv) ->
  (inject_Z (sv_time sv + v_dur v) <= mo_mpdur m + mo_mup m + 61)%Q.
Proof. exact C20_modulo_session_partial_pf. Qed.
(* examples meeting the hypotheses: ex_modulo_state *)
Print Assumptions C20_modulo_session_partial.

(** Finding, stated for all sessions with the default start number: in an interval other
    than the first since the epoch the last-segment mark is never set. *)
Theorem C20_lmsg_never : forall now parts pos v u c m n sv x,
  modulo_state u m -> 0 < v_dur v -> 0 < v_n v -> (0 <= now)%Q -> 1 <= x ->
  60 * x <= py_int_of_Q now - py_int_of_Q now mod (60 * x) ->
  modulo_init x (py_int_of_Q now) = Ok m ->
  finish_url (py_int_of_Q now) parts pos v u = Ok c ->
  media_request c n -> get_media c now = Ok (Serve sv) -> sv_lmsg sv = false.
Proof. exact C20_lmsg_never_pf. Qed.
Print Assumptions C20_lmsg_never.

(** adjusted_start_number and adjusted_pto are what the manifest announces as
    startNumber and presentationTimeOffset.  For a start number >= 0 and AST - t a
    multiple of d: the announced first number is the first one served, its media time is
    the announced offset, and every further number is d later. *)
Theorem C21_timeoffset : forall c n now a ts k,
  wf_cfg c -> media_request c n -> c_ato c = Some a ->
  c_stop_time c = None -> c_last_nrs c = [] -> c_aet c = None ->
  0 <= c_start_nr c ->
  adjusted_start_number c = Ok k ->
  (forall sv, get_media c now = Ok (Serve sv) ->
     k <= n /\ sv_time sv * ts = adjusted_pto c 0 ts + (n - k) * c_seg_dur c * ts) /\
  (k <= n -> forall b, c_tsbd c = Some b ->
     (inject_Z (c_ast c + (n - k + 1) * c_seg_dur c) - a <= now
      <= inject_Z (c_ast c + (n - k + 2) * c_seg_dur c + b))%Q ->
     exists sv, get_media c now = Ok (Serve sv)).
Proof. exact C21_timeoffset_pf. Qed.
(* examples meeting the hypotheses: ex_timeoffset *)
Print Assumptions C21_timeoffset.

(** Finding: with the default start number (snr_-1, number 1 by the DASH standard) the
    announced number is start number + offset with -1 as start number, while segments are
    served from 1. *)
Theorem C21_snr_default_refuted : exists c k,
  ex_cfg ["timeoffset_60"; "start_600"; "snr_-1"; "testpic"; "V1"; "1.m4s"]%string 640 = Ok c /\
  adjusted_start_number c = Ok k /\ first_nr c = 1 /\ k = 89 /\
  get_media c 640 = Ok (Serve (mkServed 91 1 0 false 540 false)).
Proof. exact C21_snr_default_refuted_pf. Qed.
Print Assumptions C21_snr_default_refuted.
