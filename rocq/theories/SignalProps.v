(** Property theorems; proofs in SignalTheory.v, where the examples that meet the
    hypotheses stand beside each lemma. Generated by tools/gen_props.py. *)
From Verif Require Import Base BaseProofs BytesModel BytesProofs StrModel BoxSpec ConfigModel ConfigProofs ConfigTheory
  ProxyModel ProxySpec ProxyProofs ProxyTheory Proxy2Theory SessionProofs ClockProofs TimeModel PeriodModel PeriodSpec PeriodProofs PeriodTheory
  MpdModel MpdSpec MpdProofs MpdTheory Mpd2Spec Mpd2Proofs Mpd2Theory Mpd3Spec Mpd3Proofs Mpd3Theory
  EmsgSpec MediaSpec MediaTheory HttpModel HttpSpec HttpProofs HttpTheory EndSpec EndTheory PlayerTheory PlayerProofs SignalSpec SignalProofs.
From Verif Require Import SignalTheory.
Local Open Scope string_scope.
Open Scope Z_scope.

(** ** C70 *)
Theorem C70_signals : forall s r t0 c e src x pre period rest,
  site_ok s -> provider_config s r t0 = Ok c ->
  (forall u l X Y, c_multi_url c = u :: l -> parse_updown u = Ok (("u"%char, X), ("d"%char, Y)) -> 0 <= X /\ 0 <= Y) ->
  (forall b, c_tsbd c = Some b -> 0 <= b) ->
  x_kids src = (pre ++ period :: rest)%list -> x_tag period = "Period" ->
  Forall (fun y => x_tag y <> "Period") pre -> Forall (fun y => x_tag y <> "Period") rest ->
  get_mpd c e src (py_int_of_Q t0) = Ok x ->
  forall i P, nth_error (children "Period" x) i = Some P ->
    Forall2 (signalled c (py_int_of_Q t0) (period_before x i)) (children "AdaptationSet" period) (children "AdaptationSet" P).
Proof. exact C70_signals_pf. Qed.
Print Assumptions C70_signals.

Theorem C71_announced_partial : forall limit s sid history r0 r opts first name mfile t0 t c vc rp ct m n e src x pre period rest l reply down,
  same_session s r0 r opts first name mfile t0 c vc rp ct m n ->
  admitted limit r t -> hr_range r = None -> (0 <= t)%Q -> not_chunked c ->
  going_down c (py_int_of_Q t) down -> (forall Y, c_multi_url c <> ["u0_d" ++ print_Z Y]) ->
  (forall u k X Y, c_multi_url c = u :: k -> parse_updown u = Ok (("u"%char, X), ("d"%char, Y)) -> 0 <= X /\ 0 <= Y) ->
  (forall b, c_tsbd c = Some b -> 0 <= b) ->
  st_files s name rp (source_file c n) ".m4s" = Ok (encs l) -> segment_ok l -> Forall (fun b => btype b <> bstr "emsg") l ->
  x_kids src = (pre ++ period :: rest)%list -> x_tag period = "Period" ->
  Forall (fun y => x_tag y <> "Period") pre -> Forall (fun y => x_tag y <> "Period") rest ->
  get_mpd c e src (py_int_of_Q t0) = Ok x ->
  fst (application limit s r t sid (run limit s history [])) = Ok reply -> rp_status reply = 200 ->
  exists out, rp_body reply = [encs out] /\
    forall b, In b out -> btype b = bstr "emsg" ->
      (ct = "video" /\ 1 <= c_scte35 c <= 8 /\ (exists u, b = splice_box (c_scte35 c) (n * c_seg_dur c) u) /\ in_video x splice_scheme) \/
      (down = true /\ down_event (py_int_of_Q t) b /\ (c_stl_loss c = true -> py_int_of_Q t = py_int_of_Q t0 -> everywhere x loss_scheme)).
Proof. exact C71_announced_partial_pf. Qed.
Print Assumptions C71_announced_partial.

(** The other way round: what is due is in the segment. *)
Theorem C71_sent_partial : forall limit s sid history r0 r opts first name mfile t0 t c vc rp ct m n l reply down,
  same_session s r0 r opts first name mfile t0 c vc rp ct m n ->
  admitted limit r t -> hr_range r = None -> (0 <= t)%Q -> not_chunked c -> going_down c (py_int_of_Q t) down ->
  st_files s name rp (source_file c n) ".m4s" = Ok (encs l) -> segment_ok l -> (exists p, In (Leaf (bstr "styp") p) l) ->
  fst (application limit s r t sid (run limit s history [])) = Ok reply -> rp_status reply = 200 ->
  exists out, rp_body reply = [encs out] /\
    (down = true -> exists b, In b out /\ down_event (py_int_of_Q t) b) /\
    (ct = "video" -> 1 <= c_scte35 c <= 8 -> c_seg_dur c <= 100 -> forall u, splice (c_scte35 c) u -> 0 <= u -> u / 10 < 4294967296 ->
       u / 60 = n * c_seg_dur c / 60 -> touches (c_seg_dur c) n (u - 6) \/ touches (c_seg_dur c) n (u - 8) ->
       exists v, In (splice_box (c_scte35 c) (n * c_seg_dur c) v) out /\ splice (c_scte35 c) v).
Proof. exact C71_sent_partial_pf. Qed.
(* examples meeting the hypotheses: C70_signals_case, C71_case *)
Print Assumptions C71_sent_partial.

Theorem C71_unannounced_loss_refuted : exists s r0 r opts first name mfile t c vc rp ct m n e src x reply out b,
  same_session s r0 r opts first name mfile t c vc rp ct m n /\ get_mpd c e src (py_int_of_Q t) = Ok x /\
  fst (application 0 s r t "" (run 0 s [] [])) = Ok reply /\ rp_status reply = 200 /\ rp_body reply = [encs out] /\
  In b out /\ btype b = bstr "emsg" /\ silent x.
Proof. exact C71_unannounced_loss_refuted_pf. Qed.
Print Assumptions C71_unannounced_loss_refuted.

Theorem C71_late_refuted : exists s r0 r opts first name mfile t0 t c vc rp ct m n e src x reply out b,
  same_session s r0 r opts first name mfile t0 c vc rp ct m n /\ c_stl_loss c = true /\ get_mpd c e src (py_int_of_Q t0) = Ok x /\ (t == t0 + 1)%Q /\
  fst (application 0 s r t "" (run 0 s [] [])) = Ok reply /\ rp_status reply = 200 /\ rp_body reply = [encs out] /\
  In b out /\ down_event (py_int_of_Q t) b /\
  forall P A, In P (children "Period" x) -> In A (children "AdaptationSet" P) -> ~ announces loss_scheme A.
Proof. exact C71_late_refuted_pf. Qed.
Print Assumptions C71_late_refuted.

Theorem C71_content_type_refuted : exists s r0 r opts first name mfile t c vc rp ct m n e src x reply out b u,
  same_session s r0 r opts first name mfile t c vc rp ct m n /\ get_mpd c e src (py_int_of_Q t) = Ok x /\
  fst (application 0 s r t "" (run 0 s [] [])) = Ok reply /\ rp_status reply = 200 /\ rp_body reply = [encs out] /\
  In b out /\ b = splice_box (c_scte35 c) (n * c_seg_dur c) u /\ silent x.
Proof. exact C71_content_type_refuted_pf. Qed.
Print Assumptions C71_content_type_refuted.

Theorem C71_unused_refuted : exists s r0 opts first name mfile t0 c vc e src x,
  provider_config s r0 t0 = Ok c /\ get_mpd c e src (py_int_of_Q t0) = Ok x /\
  (exists P A, In P (children "Period" x) /\ In A (children "AdaptationSet" P) /\ announces splice_scheme A) /\
  forall limit sid history r rp ct m n t l reply,
    same_session s r0 r opts first name mfile t0 c vc rp ct m n -> admitted limit r t -> hr_range r = None -> (0 <= t)%Q ->
    st_files s name rp (source_file c n) ".m4s" = Ok (encs l) -> segment_ok l -> Forall (fun b => btype b <> bstr "emsg") l ->
    fst (application limit s r t sid (run limit s history [])) = Ok reply -> rp_status reply = 200 ->
    exists out, rp_body reply = [encs out] /\ Forall (fun b => btype b <> bstr "emsg") out.
Proof. exact C71_unused_refuted_pf. Qed.
Print Assumptions C71_unused_refuted.
