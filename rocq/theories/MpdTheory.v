(** The live manifest as a tree: properties C22 and C50. *)
From Coq Require Import ZifyBool ZifyNat Znumtheory.
From Verif Require Import Base BaseProofs ConfigModel ProxyModel ProxyTheory Proxy2Theory ConfigProofs ClockProofs TimeModel
  StrModel TimelineModel PeriodModel PeriodTheory MpdModel MpdSpec MpdProofs.
Open Scope Z_scope.

(** The manifest of the content testpic (tests/testpic/Manifest.mpd). *)
Definition ex_source : xml := (
  Elem "MPD" [("profiles", "urn:mpeg:dash:profile:isoff-live:2011,urn:com:dashif:dash264"); ("maxSegmentDuration", "PT6S");
       ("availabilityStartTime", "1970-01-01T00:00:00"); ("minBufferTime", "PT2S"); ("publishTime", "2013-04-19T13:58:32");
       ("type", "static"); ("mediaPresentationDuration", "PT1H5M")] ""
    [Elem "ProgramInformation" [] "" [Elem "Title" [] "Media Presentation Description" []];
     Elem "Period" [("id", "precambrian")] ""
      [Elem "AdaptationSet" [("contentType", "audio"); ("mimeType", "audio/mp4"); ("lang", "en")] ""
        [Elem "SegmentTemplate" [("initialization", "$RepresentationID$/init.mp4"); ("media", "$RepresentationID$/$Number$.m4s");
                                 ("duration", "6"); ("startNumber", "1")] "" [];
         Elem "Representation" [("id", "A1"); ("bandwidth", "48000")] "" []];
       Elem "AdaptationSet" [("contentType", "video"); ("mimeType", "video/mp4")] ""
        [Elem "SegmentTemplate" [("initialization", "$RepresentationID$/init.mp4"); ("media", "$RepresentationID$/$Number$.m4s");
                                 ("duration", "6"); ("startNumber", "1")] "" [];
         Elem "Representation" [("id", "V1"); ("bandwidth", "100000")] "" [];
         Elem "Representation" [("id", "V2"); ("bandwidth", "200000")] "" []]]])%string.
Definition ex_env (opts : list string) : menv :=
  mk_menv ("http://h/livesim/" ++ join "/" (List.app opts ["testpic"; "Manifest.mpd"]%string)) "http://h/livesim/" "2026-01-01T00:00:00Z"
    (fun _ => Err "IOError")%string.
Definition ex_live (opts : list string) (now : Z) : result xml := get_mpd (ex_mpd opts now) (ex_env opts) ex_source now.
Definition ex_attr (opts : list string) (now : Z) (k : string) : option string :=
  match ex_live opts now with Ok x => get k x | Err _ => None end.

(** ** C22: static exactly after the stop time.  Full statement: for every
    manifest; the case left out is the loss schedule in a down interval
    (C22_loss_refuted), and a minimumUpdatePeriod in the source stays
    (C22_source_mup_refuted). *)
Lemma C22_type_partial_pf : forall c e src now x,
  c_stl_loss c = false \/ c_multi_url c = [] -> get_mpd c e src now = Ok x ->
  (get "type" x = Some "static"%string <-> ended c now) /\
  (get "type" x = Some "dynamic"%string <-> ~ ended c now) /\
  (get "minimumUpdatePeriod" src = None -> (get "minimumUpdatePeriod" x = None <-> ended c now)).
Proof.
  intros c e src now x L H. apply get_mpd_plain in H; [|exact L].
  destruct (generate_inv _ _ _ _ _ _ H) as (d & sn & mup & ps & root & k & D & S & G & R & K & ->).
  rewrite !get_set_kids, (process_mpd_type _ _ _ _ _ _ R), (process_mpd_mup _ _ _ _ _ _ R).
  pose proof (mpd_data_static _ _ _ D) as I. destruct (md_static d).
  - assert (E : ended c now) by (apply I; reflexivity).
    split; [tauto|]. split; [split; [discriminate|tauto]|tauto].
  - assert (E : ~ ended c now) by (intros E; apply I in E; discriminate).
    split; [split; [discriminate|tauto]|]. split; [tauto|]. intros _. split; [discriminate|tauto].
Qed.
Example ex_C22_type :
  let o := ["start_600"; "stop_660"]%string in
  (ex_attr o 650 "type", ex_attr o 650 "minimumUpdatePeriod") = (Some "dynamic", Some "PT10S")%string /\
  (ex_attr o 660 "type", ex_attr o 660 "minimumUpdatePeriod") = (Some "dynamic", Some "PT10S")%string /\
  (ex_attr o 661 "type", ex_attr o 661 "minimumUpdatePeriod") = (Some "static"%string, None).
Proof. cbv zeta. split; [vm_compute; reflexivity|]. split; vm_compute; reflexivity. Qed.

(** The change is permanent, for every URL that does not name times relative to
    the request, with or without a loss schedule. *)
Lemma C22_permanent_pf : forall read base parts e1 e2 src now1 now2 c1 c2 x1 x2,
  Forall clock_free parts -> now1 <= now2 ->
  process_url read base parts now1 = Ok c1 -> process_url read base parts now2 = Ok c2 ->
  (forall u r X Y, c_multi_url c1 = u :: r -> parse_updown u = Ok (("u"%char, X), ("d"%char, Y)) -> 0 <= X /\ 0 <= Y) ->
  get_mpd c1 e1 src now1 = Ok x1 -> get_mpd c2 e2 src now2 = Ok x2 ->
  get "type" x1 = Some "static"%string -> get "type" x2 = Some "static"%string.
Proof.
  intros read base parts e1 e2 src now1 now2 c1 c2 x1 x2 F Hn P1 P2 Sn G1 G2 T1.
  destruct (process_url_clock read base parts now1 now2 c1 F P1) as (q & P2'). rewrite P2 in P2'. injection P2' as ->.
  rewrite get_mpd_publish in G2.
  destruct (get_mpd_eff _ _ _ _ _ Sn G1) as (em1 & H1). destruct (get_mpd_eff _ _ _ _ _ Sn G2) as (em2 & H2).
  pose proof (eff_mono c1 now1 now2 Sn Hn) as M.
  destruct (generate_inv _ _ _ _ _ _ H1) as (d1 & sn1 & mup1 & ps1 & root1 & k1 & D1 & _ & _ & R1 & _ & ->).
  destruct (generate_inv _ _ _ _ _ _ H2) as (d2 & sn2 & mup2 & ps2 & root2 & k2 & D2 & _ & _ & R2 & _ & ->).
  rewrite get_set_kids in *. rewrite (process_mpd_type _ _ _ _ _ _ R1) in T1. rewrite (process_mpd_type _ _ _ _ _ _ R2).
  pose proof (mpd_data_static _ _ _ D1) as I1. pose proof (mpd_data_static _ _ _ D2) as I2.
  destruct (md_static d1); [|discriminate]. destruct I1 as (I1 & _). destruct (I1 eq_refl) as (s & Es & Hs).
  assert (I : ended c1 (eff c1 now2)) by (exists s; split; [exact Es|lia]). apply I2 in I. rewrite I. reflexivity.
Qed.
Example ex_C22_permanent :
  let o := ["start_600"; "stop_660"; "segtimelineloss_1"; "baseurl_u20_d20"]%string in
  Forall clock_free (List.app o ["testpic"; "Manifest.mpd"]%string) /\
  ex_attr o 661 "type" = Some "static"%string /\ ex_attr o 690 "type" = Some "static"%string.
Proof.
  cbv zeta. split; [|split; vm_compute; reflexivity].
  cbn [List.app]. repeat constructor; intros k v H; vm_compute in H; try discriminate H; injection H as <- <-; vm_compute; intuition discriminate.
Qed.

(** Finding: in a down interval of a loss schedule the manifest is generated
    for an earlier moment, so it can stay dynamic after the stop time. *)
Lemma C22_loss_refuted_pf : exists c now x, ended c now /\ get_mpd c (ex_env []) ex_source now = Ok x /\ get "type" x = Some "dynamic"%string.
Proof.
  set (c := ex_mpd ["start_600"; "stop_624"; "segtimelineloss_1"; "baseurl_u20_d20"]%string 630).
  destruct (get_mpd c (ex_env []) ex_source 630) as [x|] eqn:E; [|vm_compute in E; discriminate].
  exists c, 630, x. split; [exists 624; split; [vm_compute; reflexivity|lia]|]. split; [exact E|].
  assert (T : match get_mpd c (ex_env []) ex_source 630 with Ok x => get "type" x | Err _ => None end = Some "dynamic"%string) by (vm_compute; reflexivity).
  rewrite E in T. exact T.
Qed.
(** Finding: a minimumUpdatePeriod in the VoD manifest survives. *)
Lemma C22_source_mup_refuted_pf : exists c src now x, ended c now /\ get_mpd c (ex_env []) src now = Ok x /\
  get "type" x = Some "static"%string /\ get "minimumUpdatePeriod" x <> None.
Proof.
  set (c := ex_mpd ["start_600"; "stop_624"]%string 630). set (src := set "minimumUpdatePeriod" "PT2S" ex_source).
  destruct (get_mpd c (ex_env []) src 630) as [x|] eqn:E; [|vm_compute in E; discriminate].
  exists c, src, 630, x. split; [exists 624; split; [vm_compute; reflexivity|lia]|]. split; [exact E|].
  assert (T : match get_mpd c (ex_env []) src 630 with Ok x => (get "type" x, get "minimumUpdatePeriod" x) | Err _ => (None, None) end
     = (Some "static", Some "PT2S")%string) by (vm_compute; reflexivity).
  rewrite E in T. injection T as -> ->. split; [reflexivity|discriminate].
Qed.

(** ** C50: the manifest is frozen while the server is down.  [t0] is the last
    up second; the two manifests may differ in the event stream that announces
    the end of media (C50_equal_refuted) and in nothing else.  Environments
    may differ in the clock text unless the option utc_direct is used. *)
Lemma C50_frozen_partial_pf : forall read base parts e w src now c c0 X Y x y,
  Forall clock_free parts -> sched c X Y -> 0 < X -> ~ In "direct"%string (c_utc c) ->
  let m := now mod 60 in
  let t0 := now - m + last_up_second X Y m in
  ud_is_down X Y m ->
  process_url read base parts now = Ok c -> get_mpd c e src now = Ok x ->
  process_url read base parts t0 = Ok c0 -> get_mpd c0 (with_wall w e) src t0 = Ok y ->
  without_events x = without_events y /\
  (* t0 is up, every second after it and up to now is down *)
  t0 < now /\ t0 mod 60 = last_up_second X Y m /\ ~ ud_is_down X Y (t0 mod 60) /\
  (forall t, t0 < t <= now -> ud_is_down X Y (t mod 60)).
Proof.
  intros read base parts e w src now c c0 X Y x y F Sc HX0 ND m t0 D P G P0 G0.
  assert (Sc' := Sc). destruct Sc' as (L & (u & r & U & PU) & HX & HY & HT).
  assert (Hm : 0 <= m < 60) by (apply Z.mod_pos_bound; lia).
  assert (Dm := D). destruct Dm as (D1 & D2).
  set (k := (m - 1) / (X + Y)). assert (I := div_mod_interval (X + Y) m X HT D1 D2 HX). fold k in I.
  assert (Hk : 0 <= k) by (apply Z.div_pos; lia).
  assert (HL : last_up_second X Y m = k * (X + Y) + X) by reflexivity.
  assert (Hn := Z.div_mod now 60 ltac:(lia)). fold m in Hn.
  assert (M : forall t, t0 <= t <= now -> t mod 60 = t - (now - m)).
  { intros t Ht. symmetry. apply Z.mod_unique_pos with (q := now / 60); unfold t0 in Ht; nia. }
  assert (M0 : t0 mod 60 = last_up_second X Y m) by (rewrite M; unfold t0; lia).
  assert (U0 : ~ ud_is_down X Y (t0 mod 60)).
  { rewrite M0, HL. intros (_ & B). replace (k * (X + Y) + X - 1) with (X - 1 + k * (X + Y)) in B by ring.
    rewrite Z.mod_add, Z.mod_small in B; lia. }
  split; [|split; [unfold t0; lia|split; [exact M0|split; [exact U0|]]]].
  - destruct (get_mpd_sched _ _ _ _ _ _ _ Sc G) as (A & _). fold m t0 in A. specialize (A D).
    destruct (process_url_clock read base parts now t0 c F P) as (q & P0'). rewrite P0 in P0'. injection P0' as ->.
    rewrite get_mpd_publish in G0. destruct (get_mpd_sched _ _ _ _ _ _ _ Sc G0) as (_ & B & _).
    specialize (B U0). rewrite M0, HL in B. specialize (B ltac:(nia) ltac:(exists k; ring)).
    rewrite generate_wall in B by exact ND. eapply generate_events; eassumption.
  - intros t Ht. rewrite M by lia. split; [unfold t0 in Ht; nia|].
    assert (V : (t - (now - m) - 1) mod (X + Y) = t - (now - m) - 1 - k * (X + Y)).
    { symmetry. apply Z.mod_unique_pos with (q := k); [unfold t0 in Ht; nia|lia]. }
    rewrite V. unfold t0 in Ht. nia.
Qed.
Example ex_C50_frozen :
  let o := ["segtimelineloss_1"; "baseurl_u20_d10"]%string in
  Forall clock_free (List.app o ["testpic"; "Manifest.mpd"]%string) /\
  sched (ex_mpd o 627) 20 10 /\ c_utc (ex_mpd o 627) = [] /\ ud_is_down 20 10 (627 mod 60) /\
  627 - 627 mod 60 + last_up_second 20 10 (627 mod 60) = 620 /\
  ex_attr o 627 "publishTime" = Some "1970-01-01T00:10:20Z"%string /\
  ex_attr o 620 "publishTime" = Some "1970-01-01T00:10:20Z"%string /\
  ex_attr o 631 "publishTime" = Some "1970-01-01T00:10:31Z"%string.
Proof.
  cbv zeta. split.
  { cbn [List.app]. repeat constructor; intros k v H; vm_compute in H; try discriminate H; injection H as <- <-; vm_compute; intuition discriminate. }
  split. { split; [vm_compute; reflexivity|]. split; [exists "u20_d10"%string, []; split; vm_compute; reflexivity|lia]. }
  split; [vm_compute; reflexivity|]. split; [split; [vm_compute; discriminate|vm_compute; discriminate]|].
  split; [vm_compute; reflexivity|]. repeat split; vm_compute; reflexivity.
Qed.

(** Within one down interval all manifests are equal, byte for byte as trees. *)
Lemma C50_one_interval_pf : forall read base parts e w src now1 now2 c1 c2 X Y x1 x2,
  Forall clock_free parts -> sched c1 X Y -> ~ In "direct"%string (c_utc c1) ->
  now1 <= now2 -> (forall t, now1 <= t <= now2 -> ud_is_down X Y (t mod 60)) ->
  (* one interval: no up second in between, also not an empty one *)
  now1 / 60 = now2 / 60 -> (now1 mod 60 - 1) / (X + Y) = (now2 mod 60 - 1) / (X + Y) ->
  process_url read base parts now1 = Ok c1 -> get_mpd c1 e src now1 = Ok x1 ->
  process_url read base parts now2 = Ok c2 -> get_mpd c2 (with_wall w e) src now2 = Ok x2 ->
  x1 = x2.
Proof.
  intros read base parts e w src now1 now2 c1 c2 X Y x1 x2 F Sc ND Hn D Q K P1 G1 P2 G2.
  destruct (process_url_clock read base parts now1 now2 c1 F P1) as (q & P2'). rewrite P2 in P2'. injection P2' as ->.
  rewrite get_mpd_publish in G2.
  destruct (get_mpd_sched _ _ _ _ _ _ _ Sc G1) as (A & _). specialize (A (D now1 ltac:(lia))).
  destruct (get_mpd_sched _ _ _ _ _ _ _ Sc G2) as (B & _). specialize (B (D now2 ltac:(lia))).
  rewrite generate_wall in B by exact ND.
  assert (E : now1 - now1 mod 60 + last_up_second X Y (now1 mod 60) = now2 - now2 mod 60 + last_up_second X Y (now2 mod 60)).
  { unfold last_up_second. rewrite K. assert (Q1 := Z.div_mod now1 60 ltac:(lia)). assert (Q2 := Z.div_mod now2 60 ltac:(lia)). lia. }
  rewrite E in A. congruence.
Qed.
Example ex_C50_one_interval :
  let o := ["segtimelineloss_1"; "baseurl_u20_d10"]%string in
  ex_live o 621 = ex_live o 630 /\ exists x, ex_live o 621 = Ok x.
Proof. cbv zeta. split; [vm_compute; reflexivity|]. eexists. vm_compute. reflexivity. Qed.

(** Finding: the manifest of the last up second itself announces an event
    stream which the frozen ones do not have. *)
Lemma C50_equal_refuted_pf : exists o x y, sched (ex_mpd o 621) 20 10 /\
  ex_live o 621 = Ok x /\ ex_live o 620 = Ok y /\ x <> y.
Proof.
  set (o := ["segtimelineloss_1"; "baseurl_u20_d10"]%string).
  exists o. destruct (ex_live o 621) as [x|] eqn:E1; [|vm_compute in E1; discriminate].
  destruct (ex_live o 620) as [y|] eqn:E2; [|vm_compute in E2; discriminate].
  exists x, y. split. { split; [vm_compute; reflexivity|]. split; [exists "u20_d10"%string, []; split; vm_compute; reflexivity|lia]. }
  split; [reflexivity|]. split; [reflexivity|]. intros <-. 
  assert (K : forall z, ex_live o 621 = Ok z -> ex_live o 620 = Ok z -> False); [|exact (K x E1 E2)].
  clear. intros z H1 H2. assert (N : ex_live o 621 <> ex_live o 620); [|congruence].
  vm_compute. discriminate.
Qed.
