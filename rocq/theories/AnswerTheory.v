(** Every manifest request whose options go together is answered: property C81. *)
From Coq Require Import ZifyBool ZifyNat Znumtheory.
From Verif Require Import Base BaseProofs ConfigModel ProxyModel ProxyTheory Proxy2Theory ConfigProofs ClockProofs TimeModel
  StrModel TimelineModel TimelineSpec PeriodModel PeriodTheory MpdModel MpdSpec MpdProofs MpdTheory Mpd3Spec AnswerSpec AnswerProofs.
Open Scope Z_scope.

(** Full statement: every option that the checks of get_mpd let pass; see the refutations below. *)
Lemma C81_answered_partial_pf : forall c e src now, consistent c -> manifest_with_period src -> (uses_profiles c -> get "profiles" src <> None) ->
  by_number c \/ (forall t, manifest_time c now t -> listable c e src t) ->
  exists x, get_mpd c e src now = Ok x.
Proof.
  intros c e src now S P U R. unfold get_mpd. rewrite checks_ok by exact S. cbn [bind]. cbv zeta.
  assert (G : forall em t, manifest_time c now t -> exists x, generate_dynamic_mpd c e src em t = Ok x).
  { intros em t T. apply manifest_ok; try assumption. destruct R as [R|R]; [left; exact R|right; exact (R t T)]. }
  destruct (G (c_emsg_last c) now) as [x ->]; [left; reflexivity|]. cbn [bind]. destruct (c_multi_url c) as [|u us] eqn:M; [eexists; reflexivity|].
  destruct (c_stl_loss c) eqn:L; [|eexists; reflexivity]. destruct (loss c S L u us M) as (a & up & b & down & E & N). rewrite E. cbn [bind].
  destruct (Z.eqb_spec (up + down) 0); [contradiction|]. destruct (Ascii.eqb a "u" && Ascii.eqb b "d"); [|eexists; reflexivity].
  apply loss_ok.
  - intros em. apply G. left. reflexivity.
  - intros em i I K. apply G. right. split; [exact L|]. split; [lia|]. exists u, us, a, up, b, down, i. split; [exact M|]. split; [exact E|].
    split; [|reflexivity]. unfold ProxyModel.zrange in I. apply in_map_iff in I. destruct I as (j & <- & _). lia.
Qed.
Definition many_options : list string := ["periods_10"; "mpdcallback_1"; "etp_5"; "etpDuration_30"; "xlink_5"; "insertad_1"; "utc_direct-head"; "scte35_2"; "chunkdur_1"]%string.
Definition many_config : config := Eval vm_compute in ex_mpd many_options 1000.
Example C81_answered_case : ex_mpd many_options 1000 = many_config /\ consistent many_config /\ by_number many_config /\ manifest_with_period ex_source /\ uses_profiles many_config
  /\ get "profiles" ex_source <> None /\ c_utc many_config = ["direct"; "head"]%string /\ c_chunkdur many_config <> None.
Proof.
  split; [vm_compute; reflexivity|]. split.
  { constructor; try (intros H; vm_compute in H; discriminate H).
    - reflexivity.
    - vm_compute. auto 20.
    - intros _. split; [vm_compute; discriminate|]. exists 2. reflexivity.
    - intros _. reflexivity.
    - intros _ _. split; [exists 2; reflexivity|]. right. vm_compute. discriminate.
    - intros _ _. split; [exists 10; reflexivity|]. split; [reflexivity|]. split; [reflexivity|]. do 5 eexists. vm_compute. reflexivity.
    - change (c_utc many_config) with ["direct"; "head"]%string. unfold utc_methods. constructor; [cbn [In]; auto|]. constructor; [cbn [In]; auto|]. constructor.
    - intros H. destruct H. reflexivity. }
  split; [split; reflexivity|].
  split; [split; [reflexivity|]; eexists; split; [right; left; reflexivity|reflexivity]|].
  split; [left; vm_compute; reflexivity|]. repeat split; vm_compute; discriminate.
Qed.
(** The loss schedule and session times relative to now *)
Definition loss_config : config := Eval vm_compute in ex_mpd ["startrel_-60"; "stoprel_60"; "segtimelineloss_1"; "baseurl_u10_d20"]%string 1000.
Example C81_answered_loss_case : consistent loss_config /\ by_number loss_config /\ c_stl_loss loss_config = true /\ c_multi_url loss_config <> [] /\ c_add_loc loss_config = true.
Proof.
  split.
  { constructor; try (intros H; vm_compute in H; discriminate H).
    - reflexivity.
    - vm_compute. auto 20.
    - constructor.
    - intros _. vm_compute. split; discriminate.
    - intros _. do 2 eexists. vm_compute. reflexivity.
    - intros _ u us H. vm_compute in H. inversion H; subst. do 4 eexists. split; [vm_compute; reflexivity|]. lia. }
  repeat split. vm_compute. discriminate.
Qed.

(** The check in get_mpd lets insertad pass with xlink_0; the division by the number of links fails. *)
Lemma C81_ads_refuted_pf : exists opts now c, ex_cfg (List.app opts ["testpic"; "Manifest.mpd"]%string) now = Ok c /\ mpd_option_checks c = Ok tt
  /\ manifest_with_period ex_source /\ get "profiles" ex_source <> None /\ get_mpd c (ex_env opts) ex_source now = Err "ZeroDivisionError"%string.
Proof.
  exists ["periods_10"; "xlink_0"; "insertad_1"]%string, 1000. eexists. split; [vm_compute; reflexivity|]. split; [vm_compute; reflexivity|].
  split; [apply C81_answered_case|]. split; [apply C81_answered_case|]. vm_compute. reflexivity.
Qed.
(** With relative session times there is a Location and no BaseURL, which the callbacks are made from. *)
Lemma C81_callback_refuted_pf : exists opts now c, ex_cfg (List.app opts ["testpic"; "Manifest.mpd"]%string) now = Ok c /\ mpd_option_checks c = Ok tt
  /\ manifest_with_period ex_source /\ get "profiles" ex_source <> None /\ get_mpd c (ex_env opts) ex_source now = Err "UnboundLocalError"%string.
Proof.
  exists ["periods_10"; "mpdcallback_10"; "startrel_-60"; "stoprel_60"]%string, 1000. eexists. split; [vm_compute; reflexivity|]. split; [vm_compute; reflexivity|].
  split; [apply C81_answered_case|]. split; [apply C81_answered_case|]. vm_compute. reflexivity.
Qed.
(** A start time relative to now without a stop time *)
Lemma C81_relative_refuted_pf : exists opts now c, ex_cfg (List.app opts ["testpic"; "Manifest.mpd"]%string) now = Ok c /\ mpd_option_checks c = Ok tt
  /\ manifest_with_period ex_source /\ get "profiles" ex_source <> None /\ get_mpd c (ex_env opts) ex_source now = Err "TypeError"%string.
Proof.
  exists ["startrel_-60"]%string, 1000. eexists. split; [vm_compute; reflexivity|]. split; [vm_compute; reflexivity|].
  split; [apply C81_answered_case|]. split; [apply C81_answered_case|]. vm_compute. reflexivity.
Qed.

(** Content with segment tables (version 1.1 of the content description): 600 video
    segments of 6 s, and the same with audio. *)
Definition tl_video_media : string * media := ("video", mkMedia 90000 ["V1"] (Some 324000000) (Some "video.dat"))%string.
Definition tl_audio_media : string * media := ("audio", mkMedia 48000 ["A1"] (Some 172800000) (Some "audio.dat"))%string.
Definition tl_vod (ms : list (string * media)) : vodcfg := mkVod 1 600 6 300 ms.
Definition tl_tables (f : string) : result (list entry) :=
  if String.eqb f "video.dat" then Ok [mk_entry 1 599 0 540000] else if String.eqb f "audio.dat" then Ok [mk_entry 1 599 0 288000] else Err "IOError"%string.
Definition tl_env : menv := mk_menv "http://h/livesim/segtimeline_1/testpic/Manifest.mpd" "http://h/livesim/" "2026-01-01T00:00:00Z" tl_tables.
Definition tl_request (ms : list (string * media)) (now : Z) : result config :=
  process_url (fun _ => Ok (tl_vod ms)) "http://h/livesim/" ["segtimeline_1"; "testpic"; "Manifest.mpd"]%string now.
Definition tl_config (ms : list (string * media)) (now : Z) : config := match tl_request ms now with Ok c => c | Err _ => config_init "" end.
Definition tl_video_config : config := Eval vm_compute in tl_config [tl_video_media] 1000.
Definition tl_both_5 : config := Eval vm_compute in tl_config [tl_video_media; tl_audio_media] 5.
Definition tl_both_6 : config := Eval vm_compute in tl_config [tl_video_media; tl_audio_media] 6.
Definition tl_both_1000 : config := Eval vm_compute in tl_config [tl_video_media; tl_audio_media] 1000.
Definition video_source : xml :=
  (Elem "MPD" [] "" [Elem "Period" [] "" [Elem "AdaptationSet" [("contentType", "video")] ""
    [Elem "SegmentTemplate" [("media", "V1/$Number$.m4s")] "" []]]])%string.
Definition answered (r : result xml) : bool := match r with Ok _ => true | Err _ => false end.
Lemma answered_ok : forall r, answered r = true -> exists x, r = Ok x.
Proof. intros [x|e] H; [exists x; reflexivity|discriminate]. Qed.

(** Timelines, in ten periods an hour and with losses *)
Definition tl_opts : list string := ["segtimelinenr_1"; "periods_10"; "segtimelineloss_1"; "baseurl_u10_d20"; "testpic"; "Manifest.mpd"]%string.
Definition tl_with (opts : list string) (now : Z) : config :=
  match process_url (fun _ => Ok (tl_vod [tl_video_media; tl_audio_media])) "http://h/livesim/" opts now with Ok c => c | Err _ => config_init "" end.
Definition tl_periods : config := Eval vm_compute in tl_with tl_opts 1000.
Definition tl_video_gen : tgen := mk_tgen 90000 [mk_entry 1 599 0 540000] 324000000 600 1.
Definition tl_audio_gen : tgen := mk_tgen 48000 [mk_entry 1 599 0 288000] 172800000 600 1.
Lemma tl_over : forall g, (g = tl_video_gen \/ g = tl_audio_gen) -> gen_ok g /\ forall t, 6 <= t -> first_over g t.
Proof.
  intros g [->| ->]; (split; [split; [discriminate|]; split; [reflexivity|]; cbn [covers tg_table tl_video_gen tl_audio_gen tg_first tg_per_wrap tg_wrap e_nr e_start e_rep e_dur]; lia|]);
    intros t T; unfold first_over.
  - assert (E : live_end tl_video_gen 0 = 540000) by (vm_compute; reflexivity). rewrite E. cbn [tg_timescale tl_video_gen]. lia.
  - assert (E : live_end tl_audio_gen 0 = 288000) by (vm_compute; reflexivity). rewrite E. cbn [tg_timescale tl_audio_gen]. lia.
Qed.
Example C81_answered_timeline_case : tl_with tl_opts 1000 = tl_periods /\ consistent tl_periods /\ manifest_with_period ex_source
  /\ get "profiles" ex_source <> None /\ c_segtlnr tl_periods = true /\ periods tl_periods = 10
  /\ (forall t, manifest_time tl_periods 1000 t -> listable tl_periods tl_env ex_source t) /\ manifest_time tl_periods 1000 970.
Proof.
  split; [vm_compute; reflexivity|]. split.
  { constructor; try (intros H; vm_compute in H; discriminate H).
    - reflexivity.
    - vm_compute. auto 20.
    - constructor.
    - intros _. do 2 eexists. vm_compute. reflexivity.
    - intros _ u us H. vm_compute in H. inversion H; subst. do 4 eexists. split; [vm_compute; reflexivity|]. lia. }
  split; [apply C81_answered_case|]. split; [apply C81_answered_case|]. split; [reflexivity|]. split; [reflexivity|].
  split.
  2:{ right. split; [reflexivity|]. split; [lia|]. do 6 eexists. exists 0. split; [reflexivity|]. split; [vm_compute; reflexivity|]. split; [lia|]. reflexivity. }
  intros t T.
  assert (T0 : 960 <= t).
  { destruct T as [->|(_ & _ & u & us & a & up & b & down & i & M & P & I & ->)]; [lia|]. vm_compute in M. injection M as <- _. vm_compute in P. injection P as _ <- _ <-.
    change (1000 mod 60) with 40. lia. }
  assert (NW : forall stop, ~ whole_session tl_periods stop) by (intros stop (W & _); discriminate W).
  constructor.
  - intros p s x Ip Tp Is Ts Ix Tx. change (x_kids ex_source) with (x_kids ex_source) in Ip.
    cbn in Ip. repeat (destruct Ip as [<-|Ip]; [try discriminate Tp|]); try contradiction.
    cbn in Is. repeat (destruct Is as [<-|Is]; [try discriminate Ts|]); try contradiction;
    cbn in Ix; repeat (destruct Ix as [<-|Ix]; [try discriminate Tx|]); try contradiction; vm_compute; (split; [auto|discriminate]).
  - intros ct [<-|[<-|[]]].
    + exists tl_video_gen. destruct (tl_over tl_video_gen (or_introl eq_refl)) as [G O]. split; [do 3 eexists; repeat split|]. split; [exact G|].
      split; [intros stop W; destruct (NW stop W)|]. intros _. split; [apply O; change (c_ast tl_periods) with 0; lia|].
      intros _ d I. apply O. vm_compute in I. destruct I as [<-|[]]. lia.
    + exists tl_audio_gen. destruct (tl_over tl_audio_gen (or_intror eq_refl)) as [G O]. split; [do 3 eexists; repeat split|]. split; [exact G|].
      split; [intros stop W; destruct (NW stop W)|]. intros _. split; [apply O; change (c_ast tl_periods) with 0; lia|].
      intros _ d I. apply O. vm_compute in I. destruct I as [<-|[]]. lia.
  - intros stop W. destruct (NW stop W).
  - intros _ _ b B. vm_compute in B. injection B as <-. change (c_seg_dur tl_periods) with 6. lia.
Qed.

(** Segment timelines are prepared for video and audio, whether the content has both or not. *)
Lemma C81_video_only_refuted_pf : exists c src now, tl_request [tl_video_media] now = Ok c /\ mpd_option_checks c = Ok tt
  /\ manifest_with_period src /\ get_mpd c tl_env src now = Err "KeyError"%string
  /\ (exists c2 x, tl_request [tl_video_media; tl_audio_media] now = Ok c2 /\ get_mpd c2 tl_env src now = Ok x).
Proof.
  exists tl_video_config, video_source, 1000.
  split; [vm_compute; reflexivity|]. split; [vm_compute; reflexivity|]. split; [split; [reflexivity|]; eexists; split; [left; reflexivity|reflexivity]|].
  split; [vm_compute; reflexivity|]. exists tl_both_1000.
  assert (E : tl_request [tl_video_media; tl_audio_media] 1000 = Ok tl_both_1000) by (vm_compute; reflexivity).
  assert (A : answered (get_mpd tl_both_1000 tl_env video_source 1000) = true) by (vm_compute; reflexivity).
  apply answered_ok in A. destruct A as [x A]. exists x. split; assumption.
Qed.
(** Before the first segment is complete there is no timeline, and no manifest. *)
Lemma C81_first_segment_refuted_pf : exists c now, tl_request [tl_video_media; tl_audio_media] now = Ok c /\ mpd_option_checks c = Ok tt
  /\ manifest_with_period ex_source /\ c_ast c <= now /\ get_mpd c tl_env ex_source now = Err "TypeError"%string
  /\ (exists c2 x, tl_request [tl_video_media; tl_audio_media] 6 = Ok c2 /\ get_mpd c2 tl_env ex_source 6 = Ok x).
Proof.
  exists tl_both_5, 5. split; [vm_compute; reflexivity|]. split; [vm_compute; reflexivity|]. split; [apply C81_answered_case|].
  split; [vm_compute; discriminate|]. split; [vm_compute; reflexivity|]. exists tl_both_6.
  assert (E : tl_request [tl_video_media; tl_audio_media] 6 = Ok tl_both_6) by (vm_compute; reflexivity).
  assert (A : answered (get_mpd tl_both_6 tl_env ex_source 6) = true) by (vm_compute; reflexivity).
  apply answered_ok in A. destruct A as [x A]. exists x. split; assumption.
Qed.

(** In the first minutes the time shift buffer reaches into a period before the availability start, which has no timeline. *)
Definition early_opts : list string := ["segtimeline_1"; "periods_10"; "testpic"; "Manifest.mpd"]%string.
Definition tl_early : config := Eval vm_compute in tl_with early_opts 100.
Lemma C81_early_period_refuted_pf : exists c now, process_url (fun _ => Ok (tl_vod [tl_video_media; tl_audio_media])) "http://h/livesim/" early_opts now = Ok c
  /\ consistent c /\ mpd_option_checks c = Ok tt /\ manifest_with_period ex_source /\ c_ast c + 60 <= now
  /\ (exists g, track_table c (me_tables tl_env) "video" g /\ first_over g now)
  /\ get_mpd c tl_env ex_source now = Err "TypeError"%string.
Proof.
  exists tl_early, 100. split; [vm_compute; reflexivity|]. split.
  { constructor; try (intros H; vm_compute in H; discriminate H).
    - reflexivity.
    - vm_compute. auto 20.
    - constructor.
    - intros H. destruct H. reflexivity. }
  split; [vm_compute; reflexivity|]. split; [apply C81_answered_case|].
  split; [vm_compute; discriminate|]. split; [exists tl_video_gen; split; [do 3 eexists; repeat split|apply (tl_over tl_video_gen (or_introl eq_refl)); lia]|]. vm_compute. reflexivity.
Qed.
