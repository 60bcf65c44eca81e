(** Property theorems; proofs in AnswerTheory.v, where the examples that meet the
    hypotheses stand beside each lemma. Generated by tools/gen_props.py. *)
From Coq Require Import ZifyBool ZifyNat Znumtheory.
From Verif Require Import Base BaseProofs ConfigModel ProxyModel ProxyTheory Proxy2Theory ConfigProofs ClockProofs TimeModel
  StrModel TimelineModel TimelineSpec PeriodModel PeriodTheory MpdModel MpdSpec MpdProofs MpdTheory Mpd3Spec AnswerSpec AnswerProofs.
From Verif Require Import AnswerTheory.
Open Scope Z_scope.

(** Full statement: every option that the checks of get_mpd let pass; see the refutations below. *)
Theorem C81_answered_partial : forall c e src now, consistent c -> manifest_with_period src -> (uses_profiles c -> get "profiles" src <> None) ->
  by_number c \/ (forall t, manifest_time c now t -> listable c e src t) ->
  exists x, get_mpd c e src now = Ok x.
Proof. exact C81_answered_partial_pf. Qed.
(* examples meeting the hypotheses: C81_answered_case, C81_answered_loss_case *)
Print Assumptions C81_answered_partial.

(** The check in get_mpd lets insertad pass with xlink_0; the division by the number of links fails. *)
Theorem C81_ads_refuted : exists opts now c, ex_cfg (List.app opts ["testpic"; "Manifest.mpd"]%string) now = Ok c /\ mpd_option_checks c = Ok tt
  /\ manifest_with_period ex_source /\ get "profiles" ex_source <> None /\ get_mpd c (ex_env opts) ex_source now = Err "ZeroDivisionError"%string.
Proof. exact C81_ads_refuted_pf. Qed.
Print Assumptions C81_ads_refuted.

(** With relative session times there is a Location and no BaseURL, which the callbacks are made from. *)
Theorem C81_callback_refuted : exists opts now c, ex_cfg (List.app opts ["testpic"; "Manifest.mpd"]%string) now = Ok c /\ mpd_option_checks c = Ok tt
  /\ manifest_with_period ex_source /\ get "profiles" ex_source <> None /\ get_mpd c (ex_env opts) ex_source now = Err "UnboundLocalError"%string.
Proof. exact C81_callback_refuted_pf. Qed.
Print Assumptions C81_callback_refuted.

(** A start time relative to now without a stop time *)
Theorem C81_relative_refuted : exists opts now c, ex_cfg (List.app opts ["testpic"; "Manifest.mpd"]%string) now = Ok c /\ mpd_option_checks c = Ok tt
  /\ manifest_with_period ex_source /\ get "profiles" ex_source <> None /\ get_mpd c (ex_env opts) ex_source now = Err "TypeError"%string.
Proof. exact C81_relative_refuted_pf. Qed.
(* examples meeting the hypotheses: C81_answered_timeline_case *)
Print Assumptions C81_relative_refuted.

(** Segment timelines are prepared for video and audio, whether the content has both or not. *)
Theorem C81_video_only_refuted : exists c src now, tl_request [tl_video_media] now = Ok c /\ mpd_option_checks c = Ok tt
  /\ manifest_with_period src /\ get_mpd c tl_env src now = Err "KeyError"%string
  /\ (exists c2 x, tl_request [tl_video_media; tl_audio_media] now = Ok c2 /\ get_mpd c2 tl_env src now = Ok x).
Proof. exact C81_video_only_refuted_pf. Qed.
Print Assumptions C81_video_only_refuted.

(** Before the first segment is complete there is no timeline, and no manifest. *)
Theorem C81_first_segment_refuted : exists c now, tl_request [tl_video_media; tl_audio_media] now = Ok c /\ mpd_option_checks c = Ok tt
  /\ manifest_with_period ex_source /\ c_ast c <= now /\ get_mpd c tl_env ex_source now = Err "TypeError"%string
  /\ (exists c2 x, tl_request [tl_video_media; tl_audio_media] 6 = Ok c2 /\ get_mpd c2 tl_env ex_source 6 = Ok x).
Proof. exact C81_first_segment_refuted_pf. Qed.
Print Assumptions C81_first_segment_refuted.

Theorem C81_early_period_refuted : exists c now, process_url (fun _ => Ok (tl_vod [tl_video_media; tl_audio_media])) "http://h/livesim/" early_opts now = Ok c
  /\ consistent c /\ mpd_option_checks c = Ok tt /\ manifest_with_period ex_source /\ c_ast c + 60 <= now
  /\ (exists g, track_table c (me_tables tl_env) "video" g /\ first_over g now)
  /\ get_mpd c tl_env ex_source now = Err "TypeError"%string.
Proof. exact C81_early_period_refuted_pf. Qed.
Print Assumptions C81_early_period_refuted.
