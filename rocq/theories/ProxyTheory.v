(** Theorems about availability of media segments, thumbnails and init segments
    (properties C01-C04, C07-C09, C55, C57 of properties.jsonl), at the level of
    the configuration derived from the URL.  UrlProps.v lifts them to URLs. *)
From Coq Require Import Lqa ZifyBool ZifyNat.
From Verif Require Import Base BaseProofs ConfigModel ProxyModel ProxySpec ProxyProofs.
Open Scope Z_scope.

(** *** A concrete configuration used in the examples (tests, not proofs). *)
Definition ex_vod : vodcfg :=
  mkVod 1 600 6 300
        [("video", mkMedia 90000 ["V1"; "V2"] None None);
         ("audio", mkMedia 48000 ["A1"] None None)]%string.
Definition ex_read (name : string) : result vodcfg :=
  if String.eqb name "testpic" then Ok ex_vod else Err "NoSectionError".
Definition ex_cfg (parts : list string) (now : Z) : result config :=
  process_url ex_read "http://h/livesim/" parts now.
Definition ex_get (parts : list string) (now : Q) : result reply :=
  let* c := ex_cfg parts (py_int_of_Q now) in get_media c now.

(** The configuration of .../tsbd_30/ato_1.5/snr_7/start_1000/testpic/V1/20.m4s *)
Definition ex_c : config :=
  Eval vm_compute in
    match ex_cfg ["tsbd_30"; "ato_1.5"; "snr_7"; "start_1000"; "testpic"; "V1"; "20.m4s"]%string 1200
    with Ok c => c | Err _ => config_init "" end.

Example ex_c_wf : wf_cfg ex_c /\ media_request ex_c 20.
Proof.
  split; constructor; try reflexivity; try discriminate.
  - exists 30. reflexivity.
  - intros H. exfalso. apply H. reflexivity.
Qed.
(* AST is 996, s = 7, so the window of 20 is [1078.5, 1116]. *)
Example ex_c_window :
  get_media ex_c (10784#10) = Ok (Refuse RTooEarly) /\
  get_media ex_c (10785#10) = Ok (Serve (mkServed 14 20 0 false 78 false)) /\
  get_media ex_c 1116 = Ok (Serve (mkServed 14 20 0 false 78 false)) /\
  get_media ex_c (11161#10) = Ok (Refuse RTooLate).
Proof. vm_compute. auto. Qed.

(** ** C01: the availability window is exact. *)
Lemma servable_no_limits : forall c n now a b,
  wf_cfg c -> c_ato c = Some a -> c_tsbd c = Some b ->
  c_stop_time c = None -> c_last_nrs c = [] -> c_aet c = None ->
  (servable c n now <->
    (first_nr c <= n /\
    (inject_Z (c_ast c + (n - first_nr c + 1) * c_seg_dur c) - a <= now)%Q /\
    (now <= inject_Z (c_ast c + (n - first_nr c + 2) * c_seg_dur c + b))%Q)).
Proof.
  intros c n now a b W Ea Eb Es El Ee.
  assert (Hd := wf_dur c W).
  unfold servable, session_started, session_not_over, available, within_end, in_time, seg_end.
  rewrite Ea, El, Ee.
  assert (Hq : c_ast c + (n - first_nr c + 1) * c_seg_dur c + c_seg_dur c + b
    = c_ast c + (n - first_nr c + 2) * c_seg_dur c + b) by ring.
  split.
  - intros (_ & _ & A & _ & B & [(k & (K & _) & _)|C]).
    + unfold has_stop in K. congruence.
    + specialize (C b Eb). rewrite Hq in C. exact (conj A (conj B C)).
  - intros (A & B & C).
    assert (P : (0 <= (n - first_nr c) * c_seg_dur c)%Z) by (apply Z.mul_nonneg_nonneg; lia).
    split; [|split; [discriminate|split; [lia|split; [split|split; auto]]]].
    + assert (inject_Z (c_ast c + c_seg_dur c) <=
              inject_Z (c_ast c + (n - first_nr c + 1) * c_seg_dur c))%Q
        by (apply (proj2 (inject_Z_le _ _)); lia). lra.
    + intros k (K & _). unfold has_stop in K. congruence.
    + intros K. congruence.
    + right. intros b' Hb'. rewrite Eb in Hb'. injection Hb' as <-. rewrite Hq. auto.
Qed.

Lemma C01_media_window_exact_pf : forall c n now a b,
  wf_cfg c -> media_request c n -> c_ato c = Some a -> c_tsbd c = Some b ->
  c_stop_time c = None -> c_last_nrs c = [] -> c_aet c = None ->
  ((exists sv, get_media c now = Ok (Serve sv)) <->
   (first_nr c <= n /\
    (inject_Z (c_ast c + (n - first_nr c + 1) * c_seg_dur c) - a <= now)%Q /\
    (now <= inject_Z (c_ast c + (n - first_nr c + 2) * c_seg_dur c + b))%Q)) /\
  ((forall sv, get_media c now <> Ok (Serve sv)) ->
   exists r, get_media c now = Ok (Refuse r)).
Proof.
  intros c n now a b W M Ea Eb Es El Ee.
  rewrite <- (servable_no_limits c n now a b) by auto.
  destruct (get_media_total c n now W M) as [(A & E)|(A & r & E)]; rewrite E; split; eauto.
  - split; auto. eauto.
  - intros K. exfalso. eapply K. eauto.
  - split; [intros (sv & K); discriminate|contradiction].
Qed.

(** ** C02: no flapping.  For one configuration the times at which a segment is
    served form an interval. *)
Lemma C02_served_times_convex_pf : forall c n t1 t2 t3 sv1 sv3,
  wf_cfg c -> media_request c n -> (t1 <= t2)%Q -> (t2 <= t3)%Q ->
  get_media c t1 = Ok (Serve sv1) -> get_media c t3 = Ok (Serve sv3) ->
  get_media c t2 = Ok (Serve sv1) /\ sv3 = sv1.
Proof.
  intros c n t1 t2 t3 sv1 sv3 W M L12 L23 H1 H3.
  apply (proj1 (get_media_serve_iff _ n _ _ W M)) in H1.
  apply (proj1 (get_media_serve_iff _ n _ _ W M)) in H3.
  destruct H1 as ((S1 & _ & A1 & E1 & T1) & ->).
  destruct H3 as ((S3 & N3 & A3 & E3 & T3) & ->).
  split; auto. apply (get_media_serve_iff _ n _ _ W M).
  split; auto. split; [|split].
  - unfold session_started in *. destruct (c_ato c); lra.
  - intros e He. specialize (N3 e He).
    assert (py_int_of_Q t2 <= py_int_of_Q t3) by (apply py_int_mono; auto).
    apply (proj2 (inject_Z_le _ _)) in H. lra.
  - split; [auto|]. split; [auto|]. unfold in_time in *. destruct (c_ato c); auto.
    destruct T1 as (T1 & _). destruct T3 as (_ & T3). split; [lra|].
    destruct T3 as [T3|T3]; [left; auto|right]. intros b Hb. specialize (T3 b Hb). lra.
Qed.

(** Consequently a segment that has been served and then refused stays refused. *)
Lemma C02_refused_for_good_pf : forall c n t1 t2 t3 sv1 r,
  wf_cfg c -> media_request c n -> (t1 <= t2)%Q -> (t2 <= t3)%Q ->
  get_media c t1 = Ok (Serve sv1) -> get_media c t2 = Ok (Refuse r) ->
  exists r', get_media c t3 = Ok (Refuse r').
Proof.
  intros c n t1 t2 t3 sv1 r W M L12 L23 H1 H2.
  destruct (get_media_total c n t3 W M) as [(A & E)|(A & r' & E)]; eauto.
  destruct (C02_served_times_convex_pf c n t1 t2 t3 _ _ W M L12 L23 H1 E). congruence.
Qed.

(** ** C03: infinite availability time offset. *)
Lemma C03_ato_inf_pf : forall c n now,
  wf_cfg c -> media_request c n -> c_ato c = None ->
  c_stop_time c = None -> c_last_nrs c = [] -> c_aet c = None ->
  ((exists sv, get_media c now = Ok (Serve sv)) <->
   ((inject_Z (c_ast c) <= now)%Q /\ first_nr c <= n)).
Proof.
  intros c n now W M Ea Es El Ee.
  assert (HS : servable c n now <-> ((inject_Z (c_ast c) <= now)%Q /\ first_nr c <= n)).
  { unfold servable, session_started, session_not_over, available, within_end, in_time.
    rewrite Ea, El, Ee. split.
    - intros (A & _ & B & _). auto.
    - intros (A & B). split; auto. split; [discriminate|]. split; [auto|]. split; [|auto].
      split; [|congruence]. intros k (K & _). unfold has_stop in K. congruence. }
  rewrite <- HS.
  destruct (get_media_total c n now W M) as [(A & E)|(A & r & E)]; rewrite E; split; eauto.
  - intros (sv & K). discriminate.
  - contradiction.
Qed.

Definition ex_inf : config :=
  Eval vm_compute in
    match ex_cfg ["ato_inf"; "testpic"; "A1"; "100000.m4s"]%string 50
    with Ok c => c | Err _ => config_init "" end.
Example ex_inf_ok : wf_cfg ex_inf /\ media_request ex_inf 100000 /\ c_ato ex_inf = None /\
  get_media ex_inf (1#2) = Ok (Serve (mkServed 401 100000 597600 false 600000 false)).
Proof.
  split; [|split; [|split]]; try constructor; try reflexivity; try discriminate.
  - exists 300. reflexivity.
  - intros H. exfalso. apply H. reflexivity.
Qed.

(** ** C04: the start number only relabels.  [c2] is [c1] with both the start
    number and the requested number moved by [k]. *)
Record relabelled (c1 c2 : config) (k : Z) : Prop := {
  rl_start : c_start_nr c2 = c_start_nr c1 + k;
  rl_nonneg1 : 0 <= c_start_nr c1;
  rl_nonneg2 : 0 <= c_start_nr c2;
  rl_ast : c_ast c2 = c_ast c1;
  rl_ato : c_ato c2 = c_ato c1;
  rl_tsbd : c_tsbd c2 = c_tsbd c1;
  rl_aet : c_aet c2 = c_aet c1;
  rl_dur : c_seg_dur c2 = c_seg_dur c1;
  rl_first : c_vod_first c2 = c_vod_first c1;
  rl_n : c_vod_n c2 = c_vod_n c1;
  rl_toff : c_timeoffset c2 = c_timeoffset c1;
  rl_emsg : c_emsg_last c2 = c_emsg_last c1;
  rl_nostop : c_stop_time c1 = None /\ c_stop_time c2 = None;
  rl_nolast : c_last_nrs c1 = [] /\ c_last_nrs c2 = []
}.

Definition relabel_served (k : Z) (s : served) : served :=
  mkServed (sv_vod s) (sv_nr s + k) (sv_offset s) (sv_lmsg s) (sv_time s) (sv_emsg s).

Lemma C04_start_number_relabels_partial_pf : forall c1 c2 n k now,
  wf_cfg c1 -> wf_cfg c2 -> relabelled c1 c2 k ->
  media_request c1 n -> media_request c2 (n + k) ->
  (exists sv, get_media c1 now = Ok (Serve sv) /\
              get_media c2 now = Ok (Serve (relabel_served k sv))) \/
  (exists r1 r2, get_media c1 now = Ok (Refuse r1) /\ get_media c2 now = Ok (Refuse r2)).
Proof.
  intros c1 c2 n k now W1 W2 R M1 M2.
  destruct R as [R1 R2 R3 R4 R5 R6 R7 R8 R9 R10 R11 R12 (R13 & R14) (R15 & R16)].
  assert (F : first_nr c2 = first_nr c1 + k).
  { unfold first_nr. rewrite R11, R8, R4, R1.
    destruct (Z.eqb_spec (c_start_nr c1 + k) (-1)); [lia|].
    destruct (Z.eqb_spec (c_start_nr c1) (-1)); [lia|].
    destruct (c_timeoffset c1); lia. }
  assert (Hsv : the_served c2 (n + k) (c_emsg_last c2)
                = relabel_served k (the_served c1 n (c_emsg_last c1))).
  { assert (T : media_start c2 (n + k) = media_start c1 n).
    { unfold media_start, media_time_at_ast. rewrite F, R8, R4, R11.
      destruct (c_timeoffset c1); f_equal; f_equal; lia. }
    unfold the_served, relabel_served, loop_index, loop_start. cbn.
    rewrite T, R8, R9, R10, R12, R15, R16. reflexivity. }
  assert (HS : servable c2 (n + k) now <-> servable c1 n now).
  { unfold servable, session_started, session_not_over, available, within_end, in_time, seg_end,
      stop_active, stop_limit, has_stop.
    rewrite F, R4, R5, R6, R7, R8, R13, R14, R15, R16.
    replace (n + k - (first_nr c1 + k)) with (n - first_nr c1) by lia.
    assert (L : first_nr c1 + k <= n + k <-> first_nr c1 <= n) by lia. rewrite L.
    split; intros (A & B & C & (D1 & D2) & E);
      (split; [exact A|split; [exact B|split; [exact C|split; [split|]]]]);
      try congruence; try (intros ? (K & _); congruence);
      (destruct (c_ato c1); [|exact I]); destruct E as (E1 & [(? & (K & _) & _)|E2]);
      congruence || (split; auto). }
  destruct (get_media_total c1 n now W1 M1) as [(A & E)|(A & r & E)];
    destruct (get_media_total c2 (n + k) now W2 M2) as [(A' & E')|(A' & r' & E')].
  - left. eexists. split; [eassumption|]. rewrite E', Hsv. reflexivity.
  - exfalso. apply A'. apply HS. auto.
  - exfalso. apply A. apply HS. auto.
  - right. eauto.
Qed.

Example ex_relabel :
  ex_get ["snr_0"; "testpic"; "V1"; "100.m4s"]%string 606 =
    Ok (Serve (mkServed 101 100 0 false 600 false)) /\
  ex_get ["snr_5"; "testpic"; "V1"; "105.m4s"]%string 606 =
    Ok (Serve (mkServed 101 105 0 false 600 false)).
Proof. vm_compute. auto. Qed.
Definition ex_r0 : config := Eval vm_compute in
  match ex_cfg ["snr_0"; "testpic"; "V1"; "100.m4s"]%string 606
  with Ok c => c | Err _ => config_init "" end.
Definition ex_r5 : config := Eval vm_compute in
  match ex_cfg ["snr_5"; "testpic"; "V1"; "105.m4s"]%string 606
  with Ok c => c | Err _ => config_init "" end.
Example ex_relabelled : relabelled ex_r0 ex_r5 5.
Proof. constructor; cbn; auto; lia. Qed.

(** ** C07: nothing after availabilityEndTime + 60 s (media or thumbnails). *)
Lemma C07_nothing_after_end_pf : forall c now e sv,
  c_aet c = Some e -> (e + 60 < inject_Z (py_int_of_Q now))%Q ->
  get_media c now <> Ok (Serve sv).
Proof.
  intros c now e sv He L H. unfold get_media in H. rewrite He in H.
  destruct (negb (str_in (c_ext c) [".m4s"%string; ".jpg"%string])); [discriminate|].
  destruct (Qltb now (first_segment_ast c)); [discriminate|].
  apply (proj2 (Qltb_true _ _)) in L. rewrite L in H. discriminate.
Qed.

(** ... and the answer is a proper error reply for media and thumbnail names. *)
Lemma C07_error_after_end_pf : forall c now e,
  c_aet c = Some e -> (e + 60 < inject_Z (py_int_of_Q now))%Q ->
  c_ext c = ".m4s"%string \/ c_ext c = ".jpg"%string ->
  exists r, get_media c now = Ok (Refuse r).
Proof.
  intros c now e He L X. unfold get_media. rewrite He.
  assert (Hx : str_in (c_ext c) [".m4s"%string; ".jpg"%string] = true)
    by (destruct X as [-> | ->]; reflexivity).
  rewrite Hx. cbn [negb].
  destruct (Qltb now (first_segment_ast c)); [eauto|].
  apply (proj2 (Qltb_true _ _)) in L. rewrite L. eauto.
Qed.

Example ex_after_end :
  ex_get ["start_600"; "dur_120"; "testpic"; "V1"; "19.m4s"]%string 780 =
     Ok (Serve (mkServed 20 19 0 true 114 false)) /\
  ex_get ["start_600"; "dur_120"; "testpic"; "V1"; "19.m4s"]%string 781 = Ok (Refuse RAfterAet).
Proof. vm_compute. auto. Qed.

(** ** C08: init segments. *)
Lemma C08_init_exact_pf : forall c now,
  c_ext c = ".mp4"%string -> (List.length (c_reps c) = 1 \/ List.length (c_reps c) = 2)%nat ->
  get_init c now = Ok (c_ast c - c_init_off c <=? py_int_of_Q now).
Proof.
  intros c now X R. unfold get_init. rewrite X. cbn [negb].
  change (negb (".mp4" =? ".mp4")%string) with false. cbv iota.
  destruct (Z.ltb_spec (py_int_of_Q now) (c_ast c - c_init_off c)).
  - f_equal. symmetry. apply Z.leb_gt. lia.
  - assert (E : (c_ast c - c_init_off c <=? py_int_of_Q now) = true) by (apply Z.leb_le; lia).
    rewrite E. destruct (c_reps c) as [|? [|? [|]]]; auto; simpl in R; lia.
Qed.

(** For request times after the epoch, "the whole second is >= AST - offset" is the same as
    "the time is >= AST - offset", and availability is permanent. *)
Lemma C08_init_permanent_pf : forall c t1 t2,
  c_ext c = ".mp4"%string -> (t1 <= t2)%Q ->
  get_init c t1 = Ok true -> get_init c t2 = Ok true.
Proof.
  intros c t1 t2 X L H. unfold get_init in *. rewrite X in *.
  change (negb (".mp4" =? ".mp4")%string) with false in *. cbv iota in *.
  assert (py_int_of_Q t1 <= py_int_of_Q t2) by (apply py_int_mono; auto).
  destruct (Z.ltb_spec (py_int_of_Q t1) (c_ast c - c_init_off c)); [discriminate|].
  destruct (Z.ltb_spec (py_int_of_Q t2) (c_ast c - c_init_off c)); [lia|]. exact H.
Qed.

Lemma C08_init_real_time_pf : forall c now,
  c_ext c = ".mp4"%string -> (List.length (c_reps c) = 1 \/ List.length (c_reps c) = 2)%nat ->
  (0 <= now)%Q ->
  (get_init c now = Ok true <-> (inject_Z (c_ast c - c_init_off c) <= now)%Q).
Proof.
  intros c now X R P. rewrite C08_init_exact_pf by auto. rewrite py_int_of_Q_nonneg by auto.
  split.
  - intros H. injection H as H. apply Z.leb_le in H. apply (proj1 (Qfloor_iff _ _)). auto.
  - intros H. apply (proj2 (Qfloor_iff _ _)) in H. f_equal. apply Z.leb_le. auto.
Qed.

Example ex_init : exists c,
  ex_cfg ["init_20"; "start_1200"; "testpic"; "V1"; "init.mp4"]%string 1180 = Ok c /\
  get_init c 1180 = Ok true /\ get_init c (11799#10) = Ok false.
Proof. eexists. split; [vm_compute; reflexivity|]. vm_compute. auto. Qed.

(** ** C09: the loop mapping. *)
(** Source file and offset used for number [n] whenever [n] is served. *)
Lemma C09_source_segment_pf : forall c n now sv,
  wf_cfg c -> media_request c n -> get_media c now = Ok (Serve sv) ->
  exists loops,
    c_vod_first c <= sv_vod sv < c_vod_first c + c_vod_n c /\
    sv_offset sv = loops * (c_seg_dur c * c_vod_n c) /\
    sv_time sv = media_start c n /\
    0 <= sv_time sv - (sv_offset sv + (sv_vod sv - c_vod_first c) * c_seg_dur c) < c_seg_dur c /\
    sv_nr sv = n.
Proof.
  intros c n now sv W M H.
  apply (proj1 (get_media_serve_iff _ n _ _ W M)) in H. destruct H as (_ & ->).
  assert (Hd := wf_dur c W). assert (Hn := wf_n c W).
  unfold the_served, loop_start, loop_index; cbn.
  set (t := media_start c n). set (d := c_seg_dur c) in *. set (N := c_vod_n c) in *.
  assert (HL : 0 < d * N) by (apply Z.mul_pos_pos; auto).
  assert (B : 0 <= (t / d) mod N < N) by (apply Z.mod_pos_bound; lia).
  exists (t / (d * N)).
  assert (E : t = (d * N) * (t / (d * N)) + t mod (d * N)) by (apply Z.div_mod; lia).
  assert (R : t mod (d * N) = t mod d + d * ((t / d) mod N)) by (apply Z.rem_mul_r; lia).
  assert (B2 : 0 <= t mod d < d) by (apply Z.mod_pos_bound; lia).
  repeat split; try lia.
Qed.

(** Consecutive numbers use cyclically consecutive files, with period N, and a
    wrap advances the offset by exactly one loop. *)
Lemma C09_consecutive_pf : forall c n t1 t2 c2 s1 s2,
  wf_cfg c -> wf_cfg c2 -> media_request c n -> media_request c2 (n + 1) ->
  c_seg_dur c2 = c_seg_dur c -> c_vod_n c2 = c_vod_n c -> c_vod_first c2 = c_vod_first c ->
  c_ast c2 = c_ast c -> c_timeoffset c2 = c_timeoffset c -> c_start_nr c2 = c_start_nr c ->
  get_media c t1 = Ok (Serve s1) -> get_media c2 t2 = Ok (Serve s2) ->
  sv_time s2 = sv_time s1 + c_seg_dur c /\
  ((sv_vod s2 = sv_vod s1 + 1 /\ sv_offset s2 = sv_offset s1) \/
   (sv_vod s1 = c_vod_first c + c_vod_n c - 1 /\ sv_vod s2 = c_vod_first c /\
    sv_offset s2 = sv_offset s1 + c_seg_dur c * c_vod_n c)).
Proof.
  intros c n t1 t2 c2 s1 s2 W W2 M M2 Ed En Ef Ea Et Es H1 H2.
  destruct (C09_source_segment_pf _ _ _ _ W M H1) as (k1 & A1 & A2 & A3 & A4 & _).
  destruct (C09_source_segment_pf _ _ _ _ W2 M2 H2) as (k2 & B1 & B2 & B3 & B4 & _).
  assert (Hd := wf_dur c W). assert (Hn := wf_n c W).
  assert (T : media_start c2 (n + 1) = media_start c n + c_seg_dur c).
  { unfold media_start, media_time_at_ast, first_nr. rewrite Ea, Et, Es, Ed.
    destruct (c_timeoffset c); destruct (c_start_nr c =? -1); lia. }
  rewrite Ed, En, Ef in *. rewrite A3, B3, A2, B2 in *. rewrite T in *.
  split; [lia|].
  set (d := c_seg_dur c) in *. set (N := c_vod_n c) in *. set (F := c_vod_first c) in *.
  set (i1 := sv_vod s1 - F) in *. set (i2 := sv_vod s2 - F) in *.
  set (t := media_start c n) in *.
  (* t = d*(k1*N + i1) + r, t + d = d*(k2*N+i2) + r', 0<=r,r'<d *)
  assert (Q1 : t / d = k1 * N + i1)
    by (symmetry; apply Z.div_unique_pos with (r := t - d * (k1 * N + i1)); lia).
  assert (Q2 : (t + d) / d = k2 * N + i2)
    by (symmetry; apply Z.div_unique_pos with (r := t + d - d * (k2 * N + i2)); lia).
  replace (t + d) with (t + 1 * d) in Q2 by lia. rewrite Z.div_add in Q2 by lia.
  assert (R : k2 * N + i2 = k1 * N + i1 + 1) by lia.
  assert (I1 : 0 <= i1 < N) by lia. assert (I2 : 0 <= i2 < N) by lia.
  destruct (Z.eq_dec i1 (N - 1)) as [W1|W1].
  - right. assert (k2 = k1 + 1 /\ i2 = 0) as (-> & E0).
    { assert (K : k2 = k1 + 1).
      { destruct (Z.lt_trichotomy k2 (k1 + 1)) as [K|[K|K]]; auto; exfalso.
        - assert (k2 * N <= k1 * N) by (apply Z.mul_le_mono_nonneg_r; lia). lia.
        - assert ((k1 + 2) * N <= k2 * N) by (apply Z.mul_le_mono_nonneg_r; lia). lia. }
      subst k2. split; auto. lia. }
    repeat split; lia.
  - left. assert (k2 = k1 /\ i2 = i1 + 1) as (-> & E0).
    { assert (K : k2 = k1).
      { destruct (Z.lt_trichotomy k2 k1) as [K|[K|K]]; auto; exfalso.
        - assert ((k2 + 1) * N <= k1 * N) by (apply Z.mul_le_mono_nonneg_r; lia). lia.
        - assert ((k1 + 1) * N <= k2 * N) by (apply Z.mul_le_mono_nonneg_r; lia). lia. }
      subst k2. split; auto. lia. }
    split; lia.
Qed.

(** Within one loop (time offset a multiple of the segment duration) the map from
    numbers to files is a bijection onto the N files: file [v] serves exactly the
    numbers congruent to it. *)
Lemma C09_bijection_pf : forall c n v,
  wf_cfg c -> (c_seg_dur c | media_time_at_ast c) ->
  c_vod_first c <= v < c_vod_first c + c_vod_n c ->
  (c_vod_first c + loop_index c (media_start c n) = v <->
   exists k, n - first_nr c + media_time_at_ast c / c_seg_dur c
             = k * c_vod_n c + (v - c_vod_first c)).
Proof.
  intros c n v W (q & Hq) Hv. assert (Hd := wf_dur c W). assert (Hn := wf_n c W).
  unfold loop_index, media_start. rewrite Hq.
  rewrite <- Z.mul_add_distr_r, !Z.div_mul by lia.
  set (m := q + (n - first_nr c)). replace (n - first_nr c + q) with m by lia.
  split.
  - intros H. exists (m / c_vod_n c).
    assert (m = c_vod_n c * (m / c_vod_n c) + m mod c_vod_n c) by (apply Z.div_mod; lia). lia.
  - intros (k & Hk).
    assert (m mod c_vod_n c = v - c_vod_first c).
    { symmetry. apply Z.mod_unique_pos with (q := k); lia. }
    lia.
Qed.

Example ex_loop :
  ex_get ["testpic"; "V1"; "599.m4s"]%string 3600 = Ok (Serve (mkServed 600 599 0 false 3594 false)) /\
  ex_get ["testpic"; "V1"; "600.m4s"]%string 3606 = Ok (Serve (mkServed 1 600 3600 false 3600 false)).
Proof. vm_compute. auto. Qed.
