(** Property theorems; proofs in MpdTheory.v, where the examples that meet the
    hypotheses stand beside each lemma. Generated by tools/gen_props.py. *)
From Coq Require Import ZifyBool ZifyNat Znumtheory.
From Verif Require Import Base BaseProofs ConfigModel ProxyModel ProxyTheory Proxy2Theory ConfigProofs ClockProofs TimeModel
  StrModel TimelineModel PeriodModel PeriodTheory MpdModel MpdSpec MpdProofs.
From Verif Require Import MpdTheory.
Open Scope Z_scope.

(** ** C22: static exactly after the stop time.  Full statement: for every
    manifest; the case left out is the loss schedule in a down interval
    (C22_loss_refuted), and a minimumUpdatePeriod in the source stays
    (C22_source_mup_refuted). *)
Theorem C22_type_partial : forall c e src now x,
  c_stl_loss c = false \/ c_multi_url c = [] -> get_mpd c e src now = Ok x ->
  (get "type" x = Some "static"%string <-> ended c now) /\
  (get "type" x = Some "dynamic"%string <-> ~ ended c now) /\
  (get "minimumUpdatePeriod" src = None -> (get "minimumUpdatePeriod" x = None <-> ended c now)).
Proof. exact C22_type_partial_pf. Qed.
(* examples meeting the hypotheses: ex_C22_type *)
Print Assumptions C22_type_partial.

(** The change is permanent, for every URL that does not name times relative to
    the request, with or without a loss schedule. *)
Theorem C22_permanent : forall read base parts e1 e2 src now1 now2 c1 c2 x1 x2,
  Forall clock_free parts -> now1 <= now2 ->
  process_url read base parts now1 = Ok c1 -> process_url read base parts now2 = Ok c2 ->
  (forall u r X Y, c_multi_url c1 = u :: r -> parse_updown u = Ok (("u"%char, X), ("d"%char, Y)) -> 0 <= X /\ 0 <= Y) ->
  get_mpd c1 e1 src now1 = Ok x1 -> get_mpd c2 e2 src now2 = Ok x2 ->
  get "type" x1 = Some "static"%string -> get "type" x2 = Some "static"%string.
Proof. exact C22_permanent_pf. Qed.
(* examples meeting the hypotheses: ex_C22_permanent *)
Print Assumptions C22_permanent.

(** Finding: in a down interval of a loss schedule the manifest is generated
    for an earlier moment, so it can stay dynamic after the stop time. *)
Theorem C22_loss_refuted : exists c now x, ended c now /\ get_mpd c (ex_env []) ex_source now = Ok x /\ get "type" x = Some "dynamic"%string.
Proof. exact C22_loss_refuted_pf. Qed.
Print Assumptions C22_loss_refuted.

(** Finding: a minimumUpdatePeriod in the VoD manifest survives. *)
Theorem C22_source_mup_refuted : exists c src now x, ended c now /\ get_mpd c (ex_env []) src now = Ok x /\
  get "type" x = Some "static"%string /\ get "minimumUpdatePeriod" x <> None.
Proof. exact C22_source_mup_refuted_pf. Qed.
Print Assumptions C22_source_mup_refuted.

(** ** C50: the manifest is frozen while the server is down.  [t0] is the last
    up second; the two manifests may differ in the event stream that announces
    the end of media (C50_equal_refuted) and in nothing else.  Environments
    may differ in the clock text unless the option utc_direct is used. *)
Theorem C50_frozen_partial : forall read base parts e w src now c c0 X Y x y,
  Forall clock_free parts -> sched c X Y -> 0 < X -> ~ In "direct"%string (c_utc c) ->
  let m := now mod 60 in
  let t0 := now - m + last_up_second X Y m in
  ud_is_down X Y m ->
  process_url read base parts now = Ok c -> get_mpd c e src now = Ok x ->
  process_url read base parts t0 = Ok c0 -> get_mpd c0 (with_wall w e) src t0 = Ok y ->
  without_events x = without_events y /\
  (* t0 is up, every second after it and up to now is down *)
  t0 < now /\ t0 mod 60 = last_up_second X Y m /\ ~ ud_is_down X Y (t0 mod 60) /\
  (forall t, t0 < t <= now -> ud_is_down X Y (t mod 60)).
Proof. exact C50_frozen_partial_pf. Qed.
(* examples meeting the hypotheses: ex_C50_frozen *)
Print Assumptions C50_frozen_partial.

(** Within one down interval all manifests are equal, byte for byte as trees. *)
Theorem C50_one_interval : forall read base parts e w src now1 now2 c1 c2 X Y x1 x2,
  Forall clock_free parts -> sched c1 X Y -> ~ In "direct"%string (c_utc c1) ->
  now1 <= now2 -> (forall t, now1 <= t <= now2 -> ud_is_down X Y (t mod 60)) ->
  (* one interval: no up second in between, also not an empty one *)
  now1 / 60 = now2 / 60 -> (now1 mod 60 - 1) / (X + Y) = (now2 mod 60 - 1) / (X + Y) ->
  process_url read base parts now1 = Ok c1 -> get_mpd c1 e src now1 = Ok x1 ->
  process_url read base parts now2 = Ok c2 -> get_mpd c2 (with_wall w e) src now2 = Ok x2 ->
  x1 = x2.
Proof. exact C50_one_interval_pf. Qed.
(* examples meeting the hypotheses: ex_C50_one_interval *)
Print Assumptions C50_one_interval.

(** Finding: the manifest of the last up second itself announces an event
    stream which the frozen ones do not have. *)
Theorem C50_equal_refuted : exists o x y, sched (ex_mpd o 621) 20 10 /\
  ex_live o 621 = Ok x /\ ex_live o 620 = Ok y /\ x <> y.
Proof. exact C50_equal_refuted_pf. Qed.
Print Assumptions C50_equal_refuted.
