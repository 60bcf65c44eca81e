(** tfdt_32, cont, duration lists, modulo and timeoffset sessions: C16-C21. *)
From Coq Require Import Lqa ZifyBool ZifyNat.
From Verif Require Import Base BaseProofs ConfigModel ProxyModel ProxySpec ProxyProofs ProxyTheory Proxy2Theory ConfigProofs ConfigTheory.
Open Scope Z_scope.

(** ** C16: tfdt_32 *)

Record tfdt_state (u : ustate) : Prop := {
  tf_flag : c_tfdt32 (u_cfg u) = true;
  tf_cont : u_cont u = false;
  tf_mod : u_mod u = None;
  tf_toff : u_toff u = None;
  tf_unt : untouched (u_cfg u)
}.

Lemma stage_start : forall now v u l c1, 0 < v_dur v ->
  (match u_start u with
     | None => Ok (update_with_vodcfg (set_reps l (u_cfg u)) v)
     | Some s => match u_mod u with
                 | Some _ => Err "ConfigProcessorError"
                 | None => process_start_time s (u_durs u) now (u_stop u)
                             (update_with_vodcfg (set_reps l (u_cfg u)) v)
                 end
     end) = Ok c1 ->
  keeps (update_with_vodcfg (set_reps l (u_cfg u)) v) c1 /\
  c_timeoffset c1 = c_timeoffset (u_cfg u) /\
  c_tfdt32 c1 = c_tfdt32 (u_cfg u) /\ c_seg_dur c1 = v_dur v /\
  (u_start u = None -> c_stop_time c1 = c_stop_time (u_cfg u) /\
     c_last_nrs c1 = c_last_nrs (u_cfg u) /\ c_ast c1 = c_ast (u_cfg u)).
Proof.
  intros now v u l c1 Hd H.
  destruct (vod_fields (set_reps l (u_cfg u)) v)
    as (f1&_&_&_&_&f6&_&_&_&_&f11&f12&_&f14&f15&_).
  set (c0 := update_with_vodcfg (set_reps l (u_cfg u)) v) in *.
  change (c_tfdt32 (set_reps l (u_cfg u))) with (c_tfdt32 (u_cfg u)) in f12.
  change (c_timeoffset (set_reps l (u_cfg u))) with (c_timeoffset (u_cfg u)) in f15.
  change (c_stop_time (set_reps l (u_cfg u))) with (c_stop_time (u_cfg u)) in f14.
  change (c_last_nrs (set_reps l (u_cfg u))) with (c_last_nrs (u_cfg u)) in f11.
  change (c_ast (set_reps l (u_cfg u))) with (c_ast (u_cfg u)) in f6.
  clearbody c0.
  destruct (u_start u) as [s|].
  - destruct (u_mod u); [discriminate|].
    assert (D0' : 0 < c_seg_dur c0) by (rewrite f1; lia).
    destruct (start_time_fields _ _ _ _ _ _ D0' H) as (K & _ & K2 & _).
    split; [exact K|]. destruct K as (k1&_&_&_&_&_&_&_&_&_&_&k12&_&k14&_).
    repeat split; try congruence; discriminate.
  - injection H as <-. split; [apply keeps_refl|]. repeat split; auto; congruence.
Qed.

(** The session limits: the latest multiple of 3 h not after the request time, and 3 h
    later. *)
Lemma C16_tfdt32_session_pf : forall now parts pos v u c,
  tfdt_state u -> 0 < v_dur v ->
  finish_url now parts pos v u = Ok c ->
  (c_ast c <= now < c_ast c + 10800 /\ (10800 | c_ast c)) /\
  c_aet c = Some (inject_Z (c_ast c + 10800)) /\
  c_mpdur c = Some (inject_Z 10800) /\ c_tfdt32 c = true.
Proof.
  intros now parts pos v u c [S1 S2 S3 S4 S5] Hd H.
  destruct (finish_url_stages _ _ _ _ _ _ H) as (l & c1 & c2 & c3 & c4 & p & H0 & H1 & H2 & H3 & H4 & ->).
  rewrite S2 in H2, H3. rewrite S3 in H4.
  destruct (stage_start _ _ _ _ _ Hd H1) as (K & T & F & D & _).
  rewrite F, S1 in H2. injection H3 as <-. injection H4 as <-.
  destruct (tfdt32_fields _ _ _ H2) as (K2 & A & E & M & _).
  destruct (finish_tail_fields u p c2) as (K3 & G1 & G2 & G3 & _).
  destruct K3 as (_&_&_&_&_&_&_&_&_&_&_&k12&_). destruct K2 as (_&_&_&_&_&_&_&_&_&_&_&j12&_).
  rewrite G1, G2, G3, k12, j12, F, A, E, M, S1.
  assert (B := div_floor_bounds now 10800 ltac:(lia)).
  repeat split; try lia. exists (now / 10800). reflexivity.
Qed.

(** Every segment served in the session has a decode time of 32 bits, as long as 3 h
    (plus the availability offset) of ticks fit. *)
Lemma C16_tfdt32_fits_pf : forall now parts pos v u c n sv a ts,
  tfdt_state u -> 0 < v_dur v -> 0 < v_n v -> (0 <= now)%Q -> 0 < ts ->
  finish_url (py_int_of_Q now) parts pos v u = Ok c ->
  media_request c n -> c_ato c = Some a ->
  ((inject_Z 10800 + a) * inject_Z ts <= inject_Z (2 ^ 32))%Q ->
  get_media c now = Ok (Serve sv) ->
  0 <= sv_time sv * ts /\ (sv_time sv + c_seg_dur c) * ts < 2 ^ 32.
Proof.
  intros now parts pos v u c n sv a ts S Hd Hn Hnow Hts HF M Ea Hfit H.
  destruct (finish_url_wf _ _ _ v u _ Hd Hn (proj1 (proj2 (proj2 (proj2 (proj2 (tf_unt _ S)))))) HF) as (W & B).
  destruct (C16_tfdt32_session_pf _ _ _ _ _ _ S Hd HF) as (((A1 & A2) & _) & _).
  assert (To : c_timeoffset c = None).
  { destruct S as [S1 S2 S3 S4 S5].
    destruct (finish_url_stages _ _ _ _ _ _ HF) as (l & c1 & c2 & c3 & c4 & p & H0 & H1 & H2 & H3 & H4 & ->).
    rewrite S2 in H2, H3. rewrite S3 in H4.
    destruct (stage_start _ _ _ _ _ Hd H1) as (K & T & F & D & _).
    rewrite F, S1 in H2. injection H3 as <-. injection H4 as <-.
    destruct (tfdt32_fields _ _ _ H2) as (_ & _ & _ & _ & _ & _ & _ & K2 & _).
    destruct (finish_tail_fields u p c2) as (_ & _ & _ & _ & _ & _ & _ & G & _).
    rewrite G, S4, K2, T. destruct S5 as (_&_&_&_&_&x&_). exact x. }
  apply (proj1 (get_media_serve_iff _ n _ _ W M)) in H.
  destruct H as ((_ & _ & (A & _ & T)) & ->).
  unfold in_time in T. rewrite Ea in T. destruct T as (T & _).
  cbn [sv_time the_served]. unfold the_served; cbn [sv_time]. unfold media_start, media_time_at_ast.
  rewrite To. rewrite Z.add_0_l. unfold seg_end in T.
  set (k := n - first_nr c) in *. assert (Hk : 0 <= k) by lia.
  assert (Hd' := wf_dur c W). set (d := c_seg_dur c) in *.
  split; [apply Z.mul_nonneg_nonneg; [apply Z.mul_nonneg_nonneg|]; lia|].
  assert (N : (now < inject_Z (c_ast c + 10800))%Q).
  { rewrite py_int_of_Q_nonneg in A2 by auto. apply (proj1 (Qfloor_lt_iff _ _)) in A2. exact A2. }
  assert (X : (inject_Z (k * d + d) < inject_Z 10800 + a)%Q).
  { replace (c_ast c + (k + 1) * d) with (c_ast c + (k * d + d)) in T by lia.
    rewrite inject_Z_plus in T, N. lra. }
  assert (P : (0 < inject_Z ts)%Q) by (change 0%Q with (inject_Z 0); apply (proj2 (inject_Z_lt _ _)); lia).
  assert (Y : (inject_Z ((k * d + d) * ts) < inject_Z (2 ^ 32))%Q).
  { rewrite inject_Z_mult. eapply Qlt_le_trans; [|exact Hfit].
    apply Qmult_lt_r; auto. }
  apply (proj1 (inject_Z_lt _ _)) in Y. exact Y.
Qed.
Example ex_tfdt32 :
  ex_get ["tfdt_32"; "testpic"; "V1"; "99.m4s"]%string 11400 =
    Ok (Serve (mkServed 100 99 0 false 594 false)) /\
  tfdt_state (mkU (set_tfdt32 true (config_init "")) None None [] None false None false) /\
  ((inject_Z 10800 + 0) * inject_Z 90000 <= inject_Z (2 ^ 32))%Q.
Proof.
  split; [vm_compute; reflexivity|]. split; [constructor; cbn; auto; repeat split|].
  vm_compute. discriminate.
Qed.

(** ** C17: continuous updates *)

Record cont_state (u : ustate) : Prop := {
  ct_flag : u_cont u = true;
  ct_start : u_start u = None;
  ct_mod : u_mod u = None;
  ct_tfdt : c_tfdt32 (u_cfg u) = false;
  ct_ato : c_ato (u_cfg u) = Some 0%Q;
  ct_unt : untouched (u_cfg u)
}.

(** AST is the multiple of d with AST + d <= now < AST + 2d: at every request time the
    first segment (and only it) is available. *)
Lemma C17_cont_one_segment_pf : forall now parts pos v u c,
  cont_state u -> 0 < v_dur v <= 5400 -> 0 < v_n v -> 0 <= v_tsbd v -> (0 <= now)%Q ->
  (forall b, c_tsbd (u_cfg u) = Some b -> 0 <= b) ->
  finish_url (py_int_of_Q now) parts pos v u = Ok c ->
  let d := v_dur v in
  ((d | c_ast c) /\ (inject_Z (c_ast c + d) <= now < inject_Z (c_ast c + 2 * d))%Q) /\
  c_aet c = Some (inject_Z (c_ast c + 10800)) /\
  (forall n, media_request c n ->
     ((exists sv, get_media c now = Ok (Serve sv)) <-> n = first_nr c)).
Proof.
  intros now parts pos v u c S Hd Hn Htb Hnow Hub HF d.
  destruct S as [S1 S2 S3 S4 S5 S6].
  assert (Hd0 : 0 < v_dur v) by lia.
  destruct (finish_url_wf _ _ _ v u _ Hd0 Hn (proj1 (proj2 (proj2 (proj2 (proj2 S6))))) HF) as (W & B).
  destruct B as (b1&b2&b3&b4&_).
  assert (Fl : c_ast c = (py_int_of_Q now - d) / d * d /\ c_aet c = Some (inject_Z (c_ast c + 10800)) /\
    c_stop_time c = None /\ c_last_nrs c = [] /\
    (exists b, c_tsbd c = Some b /\ 0 <= b)).
  { destruct (finish_url_stages _ _ _ _ _ _ HF) as (l & c1 & c2 & c3 & c4 & p & H0 & H1 & H2 & H3 & H4 & ->).
    rewrite S1 in H2, H3. rewrite S3 in H4.
    assert (H1' := H1). rewrite S2 in H1'. injection H1' as E1.
    destruct (stage_start _ _ _ _ _ Hd0 H1) as (K & T & F & D & G).
    destruct (G S2) as (G1 & G2 & _).
    rewrite F, S4 in H2. injection H2 as <-. injection H4 as <-.
    assert (Hd1 : 0 < c_seg_dur c1) by (rewrite D; lia).
    destruct (cont_fields _ _ _ Hd1 H3) as (K2 & A & E & M & St & L & Tb & _).
    destruct (finish_tail_fields u p c3) as (K3 & J1 & J2 & J3 & J4 & J5 & J6 & _).
    rewrite J1, J2, J4, J5, J6, A, E, St, L, Tb, D. destruct S6 as (_&_&_&U4&U5&_).
    repeat split; try congruence.
    destruct (vod_fields (set_reps l (u_cfg u)) v) as (_&_&_&_&f5&_). 
    rewrite <- E1, f5. change (c_tsbd (set_reps l (u_cfg u))) with (c_tsbd (u_cfg u)).
    destruct (c_tsbd (u_cfg u)) as [b|]; eexists; split; eauto. }
  destruct Fl as (A & E & St & L & (b & Tb & Hb)).
  assert (R := div_floor_bounds (py_int_of_Q now - d) d ltac:(unfold d; lia)).
  rewrite <- A in R.
  assert (N : (inject_Z (c_ast c + d) <= now)%Q /\ (now < inject_Z (c_ast c + 2 * d))%Q).
  { rewrite py_int_of_Q_nonneg in R by auto. split.
    - apply Qfloor_iff. lia.
    - apply Qfloor_lt_iff. lia. }
  split; [split; auto; rewrite A; eexists; reflexivity|]. split; auto.
  intros n M.
  assert (HS : servable c n now <-> n = first_nr c).
  { unfold servable, session_started, session_not_over, available, within_end, in_time, seg_end.
    rewrite b4, S5, E, L, b1, Tb. fold d.
    assert (NoK : forall k, ~ stop_limit c k) by (intros k (K & _); apply K; auto).
    split.
    - intros (_ & _ & H1 & _ & H2 & _).
      destruct (Z.eq_dec n (first_nr c)); auto. exfalso.
      assert (1 <= n - first_nr c) by lia.
      assert (inject_Z (c_ast c + 2 * d) <= inject_Z (c_ast c + (n - first_nr c + 1) * d))%Q.
      { apply (proj2 (inject_Z_le _ _)).
        assert (2 * d <= (n - first_nr c + 1) * d) by (apply Z.mul_le_mono_nonneg_r; unfold d; lia). lia. }
      lra.
    - intros ->. rewrite Z.sub_diag. replace ((0 + 1) * d) with d by lia.
      split; [lra|]. split.
      + intros e Ee. injection Ee as <-.
        assert (H60 : (inject_Z (py_int_of_Q now) <= inject_Z (c_ast c + 10800 + 60))%Q)
          by (apply (proj2 (inject_Z_le _ _)); unfold d in *; lia).
        rewrite inject_Z_plus in H60. exact H60.
      + split; [lia|]. split; [split; [intros k K; contradiction (NoK k K)|congruence]|].
        split; [lra|]. right. intros b' Eb. injection Eb as <-.
        assert (inject_Z (c_ast c + 2 * d) <= inject_Z (c_ast c + d + d + b))%Q
          by (apply (proj2 (inject_Z_le _ _)); lia). lra. }
  rewrite <- HS.
  destruct (get_media_total c n now W M) as [(X & Y)|(X & r & Y)]; rewrite Y; split; eauto.
  - intros (sv & Q). discriminate.
  - contradiction.
Qed.
Example ex_cont :
  ex_get ["cont_1"; "testpic"; "V1"; "0.m4s"]%string 100007 =
    Ok (Serve (mkServed 1 0 0 false 0 false)) /\
  ex_get ["cont_1"; "testpic"; "V1"; "1.m4s"]%string 100007 = Ok (Refuse RTooEarly) /\
  cont_state (mkU (config_init "") None None [] None true None false).
Proof.
  split; [vm_compute; reflexivity|]. split; [vm_compute; reflexivity|].
  constructor; cbn; auto; repeat split.
Qed.

(** ** C18: end time of a session with a list of durations *)

(** [prefix_sums x1..xk] = x1, x1+x2, ... *)
Fixpoint prefix_sums (acc : Z) (l : list Z) : list Z :=
  match l with [] => [] | x :: r => (acc + x) :: prefix_sums (acc + x) r end.

(** Announced end at time [now]: the first of the rounded ends that is at least two
    update periods ahead, with its total duration; otherwise the last end. *)
Definition end_at (a d : Z) (s : Z) : Z := (a + s) / d * d.
Definition announced (a d : Z) (mup : Q) (durs : list Z) (now : Z) (et : Z) (dur : option Z) : Prop :=
  let sums := prefix_sums 0 durs in
  (exists l1 s l2, sums = l1 ++ s :: l2 /\ et = end_at a d s /\ dur = Some s /\
     (inject_Z now + 2 * mup <= inject_Z (end_at a d s))%Q /\
     (forall s', In s' l1 -> (inject_Z (end_at a d s') < inject_Z now + 2 * mup)%Q)) \/
  ((forall s, In s sums -> (inject_Z (end_at a d s) < inject_Z now + 2 * mup)%Q) /\
   et = end_at a d (last sums 0) /\ dur = None).

Lemma end_times_sums : forall a d durs total, 0 < d ->
  end_times a d durs total = Ok (map (fun s => (end_at a d s, s)) (prefix_sums total durs)).
Proof.
  intros a d durs. induction durs as [|x durs IH]; intros total Hd; cbn [end_times prefix_sums map]; auto.
  rewrite quantize_ok by auto. cbn [bind]. rewrite IH by auto. reflexivity.
Qed.

Lemma prefix_sums_sorted : forall l acc, Forall (fun x => 0 <= x) l ->
  Sorted.StronglySorted Z.le (prefix_sums acc l) /\ (forall s, In s (prefix_sums acc l) -> acc <= s).
Proof.
  induction l as [|x l IH]; intros acc F; cbn [prefix_sums].
  - split; [constructor|]. intros s [].
  - inversion F; subst. destruct (IH (acc + x) H2) as (A & B). split.
    + constructor; auto. apply Forall_forall. exact B.
    + intros s [<-|K]; [lia|]. apply B in K. lia.
Qed.

Lemma end_at_mono : forall a d s t, 0 < d -> s <= t -> end_at a d s <= end_at a d t.
Proof.
  intros. unfold end_at. apply Z.mul_le_mono_nonneg_r; [lia|]. apply Z.div_le_mono; lia.
Qed.

(** The loop walks the list from the end. *)
Lemma aet_loop_spec : forall now mup f l et dur,
  Sorted.StronglySorted (fun s t => f t <= f s) l ->
  let '(et', dur') := aet_loop now mup (map (fun s => (f s, s)) l) et dur in
  (exists l1 s l2, l = l1 ++ s :: l2 /\ et' = f s /\ dur' = Some s /\
     (inject_Z now + 2 * mup <= inject_Z (f s))%Q /\
     (forall s', In s' l2 -> (inject_Z (f s') < inject_Z now + 2 * mup)%Q)) \/
  ((forall s, In s l -> (inject_Z (f s) < inject_Z now + 2 * mup)%Q) /\ et' = et /\ dur' = dur).
Proof.
  intros now mup f l. induction l as [|s l IH]; intros et dur SS; cbn [map aet_loop].
  - right. repeat split; auto. intros s [].
  - inversion SS as [|? ? S1 S2]; subst.
    destruct (Qltb (inject_Z (f s) - 2 * mup)%Q (inject_Z now)) eqn:E.
    + right. split; auto. qb. intros t [<-|Ht]; [lra|].
      rewrite Forall_forall in S2. specialize (S2 _ Ht).
      assert (inject_Z (f t) <= inject_Z (f s))%Q by (apply (proj2 (inject_Z_le _ _)); auto). lra.
    + qb. specialize (IH (f s) (Some s) S1).
      destruct (aet_loop now mup (map (fun s0 => (f s0, s0)) l) (f s) (Some s)) as (et', dur').
      destruct IH as [(l1 & x & l2 & -> & -> & -> & A & B)|(A & -> & ->)].
      * left. exists (s :: l1), x, l2. repeat split; auto.
      * left. exists [], s, l. repeat split; auto. lra.
Qed.

Lemma sorted_rev : forall (R : Z -> Z -> Prop) l,
  Sorted.StronglySorted R l -> Sorted.StronglySorted (fun a b => R b a) (rev l).
Proof.
  intros R l H. induction H as [|x l S IH F]; cbn [rev]; [constructor|].
  assert (G : forall l', Sorted.StronglySorted (fun a b => R b a) l' ->
     Forall (fun y => R x y) l' -> Sorted.StronglySorted (fun a b => R b a) (l' ++ [x])).
  { induction l' as [|y l' IH']; intros S' F'; cbn [app]; [repeat constructor|].
    inversion S'; subst. inversion F'; subst. constructor; auto.
    apply Forall_app. split; auto. }
  apply G; auto. apply Forall_rev. auto.
Qed.

Lemma start_time_aet : forall a durs now c c', durs <> [] -> 0 < c_seg_dur c ->
  Forall (fun x => 0 <= x) durs ->
  process_start_time a durs now None c = Ok c' ->
  let mup := match c_mup c with None => inject_Z 10 | Some m => m end in
  exists et dur, announced a (c_seg_dur c) mup durs now et dur /\
    c_aet c' = Some (inject_Z et) /\ c_mpdur c' = option_map inject_Z dur.
Proof.
  intros a durs now c c' N Hd Fd H mup. unfold process_start_time in H.
  set (d := c_seg_dur c) in *.
  rewrite quantize_ok in H by auto. cbn [bind] in H.
  set (c1 := match c_mup _ with None => _ | Some _ => _ end) in H.
  assert (M1 : c_mup c1 = Some mup).
  { unfold c1, mup. change (c_mup (set_start_time (Some (a / d * d)) (set_ast (a / d * d) c))) with (c_mup c).
    destruct (c_mup c) eqn:Em; [|reflexivity]. exact Em. }
  clearbody c1 mup d.
  destruct durs as [|x durs]; [congruence|].
  rewrite end_times_sums in H by auto. set (sums := prefix_sums 0 (x :: durs)) in H.
  assert (Ns : sums <> []) by (unfold sums; cbn; discriminate).
  cbn [bind] in H. 
  assert (Nm : map (fun s => (end_at a d s, s)) sums <> []) by (destruct sums; [congruence|discriminate]).
  rewrite (py_last_ok _ (0, 0)) in H by auto. cbn [bind] in H.
  rewrite py_div_ok in H by lia. cbn [bind] in H.
  apply bind_ok in H. destruct H as (c2 & H & E2). injection E2 as <-.
  unfold update_with_aet in H.
  rewrite <- map_rev in H.
  destruct (rev sums) as [|z zs] eqn:Er.
  { apply (f_equal (@rev _)) in Er. rewrite rev_involutive in Er. contradiction. }
  cbn [map] in H.
  match type of H with context [c_mup ?y] => change (c_mup y) with (c_mup c1) in H end.
  rewrite M1 in H.
  destruct (prefix_sums_sorted (x :: durs) 0 Fd) as (SS & _). fold sums in SS.
  assert (SR := sorted_rev _ _ SS). rewrite Er in SR.
  assert (SF : Sorted.StronglySorted (fun s t => end_at a d t <= end_at a d s) (z :: zs)).
  { clear -SR Hd. induction SR as [|? ? ? ? F]; constructor; auto.
    eapply Forall_impl; [|exact F]. cbn. intros. apply end_at_mono; auto. }
  assert (AL := aet_loop_spec now mup (end_at a d) (z :: zs) (end_at a d z) None SF).
  cbn [map] in AL.
  destruct (aet_loop now mup ((end_at a d z, z) :: map (fun s => (end_at a d s, s)) zs) (end_at a d z) None)
    as (et, dur).
  injection H as <-. exists et, dur. split; [|split; reflexivity].
  unfold announced. fold sums.
  assert (Es : sums = rev (z :: zs)) by (rewrite <- Er, rev_involutive; reflexivity).
  destruct AL as [(l1 & s & l2 & El & -> & -> & A & B)|(A & -> & ->)].
  - left. exists (rev l2), s, (rev l1). rewrite Es, El, rev_app_distr. cbn [rev].
    rewrite <- app_assoc. cbn [app]. repeat split; auto. intros s' Hs. apply B. apply in_rev. auto.
  - right. split; [|split; auto].
    + intros s Hs. apply A. apply in_rev. rewrite <- Es. auto.
    + f_equal. rewrite Es. cbn [rev]. rewrite last_last. reflexivity.
Qed.

Lemma C18_announced_end_partial_pf : forall now parts pos v u c a durs,
  dur_state u a durs -> 0 < v_dur v -> Forall (fun x => 0 <= x) durs ->
  finish_url now parts pos v u = Ok c ->
  let mup := match c_mup (u_cfg u) with None => inject_Z 10 | Some m => m end in
  exists et dur, announced a (v_dur v) mup durs now et dur /\
    c_aet c = Some (inject_Z et) /\ c_mpdur c = option_map inject_Z dur.
Proof.
  intros now parts pos v u c a durs S Hd Fd H mup.
  destruct (finish_url_stages _ _ _ _ _ _ H) as (l & c1 & c2 & c3 & c4 & p & H0 & H1 & H2 & H3 & H4 & ->).
  destruct (stage_start _ _ _ _ _ Hd H1) as (_ & _ & F & D & _).
  destruct S as [S1 S2 S3 S4 S5 S6 S7 S8].
  rewrite S1, S2, S3, S6 in H1. rewrite S5 in H2, H3. rewrite S6 in H4.
  rewrite F, S7 in H2. injection H2 as <-. injection H3 as <-. injection H4 as <-.
  destruct (finish_tail_fields u p c1) as (_ & _ & G2 & G3 & _).
  rewrite G2, G3.
  destruct (vod_fields (set_reps l (u_cfg u)) v)
    as (f1&_&_&_&_&_&_&_&_&f10&_).
  set (c0 := update_with_vodcfg (set_reps l (u_cfg u)) v) in *.
  change (c_mup (set_reps l (u_cfg u))) with (c_mup (u_cfg u)) in f10. clearbody c0.
  assert (D0' : 0 < c_seg_dur c0) by (rewrite f1; lia).
  assert (R := start_time_aet _ _ _ _ _ S4 D0' Fd H1). cbv zeta in R.
  rewrite f1, f10 in R. exact R.
Qed.
Example ex_announced : forall now, now = 100 ->
  exists c, ex_cfg ["start_60"; "dur_60"; "dur_120"; "testpic"; "V1"; "1.m4s"]%string now = Ok c /\
  c_aet c = Some (inject_Z 120) /\ c_mpdur c = Some (inject_Z 60).
Proof. intros now ->. vm_compute. eexists. repeat split. Qed.

(** The announced end never moves back as time passes. *)
Lemma C18_announced_end_monotone_pf : forall a d mup durs now1 now2 et1 dur1 et2 dur2,
  0 < d -> Forall (fun x => 0 <= x) durs -> durs <> [] -> now1 <= now2 ->
  announced a d mup durs now1 et1 dur1 -> announced a d mup durs now2 et2 dur2 ->
  et1 <= et2.
Proof.
  intros a d mup durs now1 now2 et1 dur1 et2 dur2 Hd Fd N L H1 H2.
  assert (LQ : (inject_Z now1 <= inject_Z now2)%Q) by (apply (proj2 (inject_Z_le _ _)); auto).
  destruct (prefix_sums_sorted durs 0 Fd) as (SS & _).
  unfold announced in *. set (sums := prefix_sums 0 durs) in *.
  assert (Ns : sums <> []) by (unfold sums; destruct durs; [congruence|discriminate]).
  assert (LM : forall s, In s sums -> end_at a d s <= end_at a d (last sums 0)).
  { intros s Hs. apply end_at_mono; auto. clear -SS Hs.
    induction SS as [|x l S IH F]; [destruct Hs|].
    destruct l as [|y l]; [destruct Hs as [->|[]]; cbn; lia|].
    change (last (x :: y :: l) 0) with (last (y :: l) 0).
    destruct Hs as [->|Hs]; [|auto].
    rewrite Forall_forall in F. apply F. 
    clear. revert y. induction l as [|z l IH]; intros y; [left; reflexivity|].
    right. apply IH. }
  destruct H2 as [(m1 & t & m2 & Em & -> & _ & T1 & T2)|(T1 & -> & _)].
  - destruct H1 as [(l1 & s & l2 & El & -> & _ & A & B)|(A & -> & _)].
    + (* t satisfies the condition at now1, so it is not before s *)
      assert (Ht : In t sums) by (rewrite Em; apply in_elt).
      assert (Hin : In t l1 \/ In t (s :: l2)) by (apply in_app_or; rewrite <- El; auto).
      destruct Hin as [Hin|Hin].
      * specialize (B _ Hin). lra.
      * destruct Hin as [->|Hin]; [lia|]. apply end_at_mono; auto.
        rewrite El in SS. clear -SS Hin. induction l1 as [|x l1 IH]; cbn [app] in SS; inversion SS; subst; auto.
        rewrite Forall_forall in H2. auto.
    + assert (Ht : In t sums) by (rewrite Em; apply in_elt).
      specialize (A _ Ht). lra.
  - destruct H1 as [(l1 & s & l2 & El & -> & _ & A & B)|(A & -> & _)].
    + apply LM. rewrite El. apply in_elt.
    + lia.
Qed.
Example ex_announced_two :
  announced 60 6 (inject_Z 10) [60; 120] 100 120 (Some 60) /\
  announced 60 6 (inject_Z 10) [60; 120] 110 240 (Some 180).
Proof.
  split; left.
  - exists [], 60, [180]. repeat split; try (vm_compute; congruence). intros s [].
  - exists [60], 180, []. repeat split; try (vm_compute; congruence).
    intros s [<-|[]]. vm_compute. reflexivity.
Qed.

(** Finding: from two update periods before the end on, no mediaPresentationDuration is
    announced any more, although the end time is. *)
Lemma C18_duration_dropped_refuted_pf : exists now c,
  ex_cfg ["start_60"; "dur_60"; "testpic"; "V1"; "1.m4s"]%string now = Ok c /\
  now < 60 + 60 /\ c_aet c = Some (inject_Z 120) /\ c_mpdur c = None.
Proof. exists 101. eexists. split; [vm_compute; reflexivity|]. repeat split. Qed.

(** ** C19: the documented modulo schedule *)

Definition modulo_row (x P r ast : Z) (mpdur : Q) : Prop :=
  let M := 60 * x in
  (10 * r < M -> ast = P /\ (mpdur == inject_Z M * (2#10))%Q) /\
  (M <= 10 * r < 3 * M -> ast = P /\ (mpdur == inject_Z M * (4#10))%Q) /\
  (3 * M <= 10 * r < 5 * M -> ast = P /\ (mpdur == inject_Z M * (6#10))%Q) /\
  (5 * M <= 10 * r < 9 * M -> ast = P /\ (mpdur == inject_Z M * (8#10))%Q) /\
  (9 * M <= 10 * r -> ast = P + M /\ (mpdur == inject_Z M * (2#10))%Q).

Lemma percent_lt : forall r M k, 0 < M ->
  Qltb (inject_Z (r * 100) / inject_Z M) (inject_Z k) = (r * 100 <? k * M).
Proof.
  intros r M k HM. destruct (Z.ltb_spec (r * 100) (k * M)) as [L|L].
  - apply Qltb_true. apply Qlt_shift_div_r; [change 0%Q with (inject_Z 0); apply (proj2 (inject_Z_lt _ _)); lia|].
    rewrite <- inject_Z_mult. apply (proj2 (inject_Z_lt _ _)). lia.
  - apply Qltb_false. apply Qle_shift_div_l; [change 0%Q with (inject_Z 0); apply (proj2 (inject_Z_lt _ _)); lia|].
    rewrite <- inject_Z_mult. apply (proj2 (inject_Z_le _ _)). lia.
Qed.
Lemma Qleb_negb : forall a b, Qleb a b = negb (Qltb b a).
Proof.
  intros. destruct (Qltb b a) eqn:E; qb.
  - apply Qleb_false. auto.
  - apply Qleb_true. auto.
Qed.

Lemma C19_modulo_table_pf : forall x now m, 1 <= x ->
  modulo_init x now = Ok m ->
  let M := 60 * x in
  exists P r, now = P + r /\ 0 <= r < M /\ (M | P) /\
    modulo_row x P r (mo_ast m) (mo_mpdur m) /\
    (mo_mup m == inject_Z M * (5#100))%Q /\
    (mo_aet m == inject_Z (mo_ast m) + mo_mpdur m + mo_mup m)%Q.
Proof.
  intros x now m Hx H M. unfold modulo_init in H. fold M in H.
  assert (HM : 0 < M) by (unfold M; lia).
  unfold mo_percent in H. rewrite py_mod_ok in H by lia. cbn [bind] in H.
  unfold mo_calc_ast in H. rewrite quantize_ok in H by lia. cbn [bind] in H.
  injection H as <-. cbn [mo_ast mo_mpdur mo_mup mo_aet].
  exists (now / M * M), (now mod M).
  assert (R := Z.mod_pos_bound now M HM). assert (E := Z.div_mod now M ltac:(lia)).
  split; [lia|]. split; [lia|]. split; [exists (now / M); reflexivity|].
  split; [|split; [|reflexivity]].
  2: { unfold Qdiv. change (/ 20)%Q with (1#20)%Q. ring_simplify. change (5#100)%Q with (1#20)%Q || idtac. 
       setoid_replace (5#100)%Q with (1#20)%Q by reflexivity. ring. }
  unfold modulo_row, mo_calc_mpdur. rewrite Qleb_negb.
  change 90%Q with (inject_Z 90). change 10%Q with (inject_Z 10). change 30%Q with (inject_Z 30).
  change 50%Q with (inject_Z 50).
  rewrite !percent_lt by auto. set (r := now mod M) in *.
  assert (Q10 : forall k, (inject_Z (k * M) / inject_Z 10 == inject_Z M * (k#1) * (1#10))%Q).
  { intros k. rewrite inject_Z_mult. unfold Qdiv. change (/ inject_Z 10)%Q with (1#10)%Q.
    change (inject_Z k) with (k#1)%Q. ring. }
  split; [|split; [|split; [|split]]]; intros HR;
    destruct (Z.ltb_spec (r * 100) (10 * M)); try lia;
    destruct (Z.ltb_spec (r * 100) (30 * M)); try lia;
    destruct (Z.ltb_spec (r * 100) (50 * M)); try lia;
    destruct (Z.ltb_spec (r * 100) (90 * M)); try lia; cbn [negb];
    (split; [reflexivity|]); rewrite Q10;
    rewrite <- Qmult_assoc; apply Qmult_comp; reflexivity.
Qed.
Example ex_modulo : exists m, modulo_init 10 (3600 * 7 + 60 * 5) = Ok m /\
  mo_ast m = 3600 * 7 /\ (mo_mpdur m == 480)%Q /\ (mo_mup m == 30)%Q /\ (mo_aet m == inject_Z (3600 * 7 + 510))%Q.
Proof. eexists. split; [vm_compute; reflexivity|]. vm_compute. auto. Qed.

(** Within one interval (as long as the same AST is announced) the announced duration,
    and with it the end time, only grows; the next interval's end is later still. *)
Lemma C19_modulo_end_monotone_pf : forall x now1 now2 m1 m2, 1 <= x -> now1 <= now2 ->
  modulo_init x now1 = Ok m1 -> modulo_init x now2 = Ok m2 ->
  (mo_aet m1 <= mo_aet m2)%Q.
Proof.
  intros x now1 now2 m1 m2 Hx L H1 H2.
  destruct (C19_modulo_table_pf _ _ _ Hx H1) as (P1 & r1 & E1 & B1 & (q1 & D1) & T1 & U1 & A1).
  destruct (C19_modulo_table_pf _ _ _ Hx H2) as (P2 & r2 & E2 & B2 & (q2 & D2) & T2 & U2 & A2).
  rewrite A1, A2, U1, U2. clear A1 A2 U1 U2 H1 H2.
  set (M := 60 * x) in *. assert (HM : 0 < M) by (unfold M; lia).
  assert (Q12 : q1 <= q2).
  { destruct (Z.le_gt_cases q1 q2); auto. exfalso.
    assert ((q2 + 1) * M <= q1 * M) by (apply Z.mul_le_mono_nonneg_r; lia). lia. }
  assert (PM : (0 < inject_Z M)%Q) by (change 0%Q with (inject_Z 0); apply (proj2 (inject_Z_lt _ _)); lia).
  assert (LE : forall a b, a <= b -> (inject_Z a <= inject_Z b)%Q) by (intros; apply (proj2 (inject_Z_le _ _)); auto).
  assert (row : forall P r ast dur, 0 <= r < M -> modulo_row x P r ast dur ->
     (10 * r < 9 * M /\ ast = P /\
        (exists k, (dur == inject_Z M * k)%Q /\
         (k == (if 10 * r <? M then 2#10 else if 10 * r <? 3 * M then 4#10 else if 10 * r <? 5 * M then 6#10 else 8#10))%Q)) \/
     (9 * M <= 10 * r /\ ast = P + M /\ (dur == inject_Z M * (2#10))%Q)).
  { intros P r ast dur Hr (R1 & R2 & R3 & R4 & R5). fold M in R1, R2, R3, R4, R5.
    destruct (Z.ltb_spec (10 * r) M).
    { left. destruct (R1 H). split; [lia|]. split; auto. eexists. split; [eassumption|]. reflexivity. }
    destruct (Z.ltb_spec (10 * r) (3 * M)).
    { left. destruct (R2 ltac:(lia)). split; [lia|]. split; auto. eexists. split; [eassumption|]. reflexivity. }
    destruct (Z.ltb_spec (10 * r) (5 * M)).
    { left. destruct (R3 ltac:(lia)). split; [lia|]. split; auto. eexists. split; [eassumption|]. reflexivity. }
    destruct (Z.le_gt_cases (9 * M) (10 * r)).
    - right. destruct (R5 H2). auto.
    - left. destruct (R4 ltac:(lia)). split; [lia|]. split; auto. eexists. split; [eassumption|]. reflexivity. }
  destruct (row _ _ _ _ B1 T1) as [(V1 & -> & k1 & -> & K1)|(V1 & -> & ->)];
  destruct (row _ _ _ _ B2 T2) as [(V2 & -> & k2 & -> & K2)|(V2 & -> & ->)];
  try rewrite K1; try rewrite K2; clear T1 T2 row.
  - destruct (Z.eq_dec q1 q2) as [->|].
    + assert (P1 = P2) by lia. subst P2. rewrite <- H. assert (r1 <= r2) by lia.
      destruct (Z.ltb_spec (10 * r1) M); destruct (Z.ltb_spec (10 * r1) (3 * M));
      destruct (Z.ltb_spec (10 * r1) (5 * M)); destruct (Z.ltb_spec (10 * r2) M);
      destruct (Z.ltb_spec (10 * r2) (3 * M)); destruct (Z.ltb_spec (10 * r2) (5 * M)); try lia; lra.
    + assert (X : (inject_Z (P1 + M) <= inject_Z P2)%Q).
      { apply LE. assert ((q1 + 1) * M <= q2 * M) by (apply Z.mul_le_mono_nonneg_r; lia). lia. }
      rewrite inject_Z_plus in X.
      destruct (10 * r1 <? M), (10 * r1 <? 3 * M), (10 * r1 <? 5 * M), (10 * r2 <? M), (10 * r2 <? 3 * M), (10 * r2 <? 5 * M); lra.
  - assert (X : (inject_Z P1 <= inject_Z P2)%Q).
    { apply LE. assert (q1 * M <= q2 * M) by (apply Z.mul_le_mono_nonneg_r; lia). lia. }
    rewrite inject_Z_plus.
    destruct (10 * r1 <? M), (10 * r1 <? 3 * M), (10 * r1 <? 5 * M); lra.
  - destruct (Z.eq_dec q1 q2) as [->|].
    + exfalso. lia.
    + assert (X : (inject_Z (P1 + M) <= inject_Z P2)%Q).
      { apply LE. assert ((q1 + 1) * M <= q2 * M) by (apply Z.mul_le_mono_nonneg_r; lia). lia. }
      destruct (10 * r2 <? M), (10 * r2 <? 3 * M), (10 * r2 <? 5 * M); lra.
  - assert (X : (inject_Z (P1 + M) <= inject_Z (P2 + M))%Q).
    { apply LE. assert (q1 * M <= q2 * M) by (apply Z.mul_le_mono_nonneg_r; lia). lia. }
    lra.
Qed.
Example ex_modulo_two : exists m1 m2, modulo_init 10 4200 = Ok m1 /\ modulo_init 10 4790 = Ok m2 /\
  (mo_aet m1 == 4350)%Q /\ (mo_aet m2 == 4950)%Q.
Proof. do 2 eexists. split; [vm_compute; reflexivity|]. split; [vm_compute; reflexivity|]. vm_compute. auto. Qed.

(** ** C20: where a modulo session ends *)

(** Finding: segments beyond the announced presentation duration are served (until 60 s
    after the end time), because the last number is counted from the epoch while the
    segment numbers start at the AST. *)
Lemma C20_modulo_end_refuted_pf : exists now c sv,
  ex_cfg ["modulo_10"; "testpic"; "V1"; "85.m4s"]%string (py_int_of_Q now) = Ok c /\
  c_mpdur c = Some (inject_Z (8 * 600) / 10)%Q /\
  get_media c now = Ok (Serve sv) /\
  sv_time sv = 85 * 6 /\ 480 <= sv_time sv /\ sv_lmsg sv = false.
Proof.
  exists (inject_Z (600 * 1000 + 516)).
  eexists. eexists. split; [vm_compute; reflexivity|].
  split; [reflexivity|]. split; [vm_compute; reflexivity|]. cbn. repeat split. discriminate.
Qed.

Record modulo_state (u : ustate) (m : modulo) : Prop := {
  mds_mod : u_mod u = Some m;
  mds_start : u_start u = None;
  mds_cont : u_cont u = false;
  mds_tfdt : c_tfdt32 (u_cfg u) = false;
  mds_toff : u_toff u = None;
  mds_ato : c_ato (u_cfg u) = Some 0%Q;
  mds_snr : c_start_nr (u_cfg u) = 0;
  mds_unt : untouched (u_cfg u)
}.

Lemma modulo_cfg : forall now parts pos v u c m,
  modulo_state u m -> 0 < v_dur v ->
  finish_url now parts pos v u = Ok c ->
  c_ast c = mo_ast m /\ c_aet c = Some (mo_aet m) /\ c_mpdur c = Some (mo_mpdur m) /\
  c_mup c = Some (mo_mup m) /\ c_stop_time c = None /\ c_timeoffset c = None /\
  c_last_nrs c = [((inject_Z (mo_ast m) + mo_mpdur m) / inject_Z (v_dur v) - 1)%Q].
Proof.
  intros now parts pos v u c m [S1 S2 S3 S4 S5 S6 S7 S8] Hd HF.
  destruct (finish_url_stages _ _ _ _ _ _ HF) as (l & c1 & c2 & c3 & c4 & p & H0 & H1 & H2 & H3 & H4 & ->).
  rewrite S3 in H2, H3. rewrite S1 in H4.
  destruct (stage_start _ _ _ _ _ Hd H1) as (_ & T & F & D & G).
  destruct (G S2) as (G1 & G2 & _).
  rewrite F, S4 in H2. injection H2 as <-. injection H3 as <-.
  destruct (modulo_fields _ _ _ _ H4) as (x & Hx & _ & A & E & M & St & L & _ & To & Mu).
  destruct (finish_tail_fields u p c4) as (_ & J1 & J2 & J3 & J4 & J5 & J6 & J7 & J8).
  rewrite J1, J2, J3, J4, J5, J7, J8, A, E, M, St, L, Mu, To, T, S5.
  destruct S8 as (_&_&_&U4&U5&U6&_).
  unfold mo_last_nr in Hx. rewrite D in Hx. destruct (Z.eqb_spec (v_dur v) 0); [lia|].
  injection Hx as <-. rewrite G1, G2, U4, U5, U6. repeat split.
Qed.

(** What does hold: the MPD values are those of the schedule, nothing is served later
    than a minute after the announced end. *)
Lemma C20_modulo_session_partial_pf : forall now parts pos v u c m n sv x,
  modulo_state u m -> 0 < v_dur v -> 0 < v_n v -> (0 <= now)%Q -> 1 <= x ->
  modulo_init x (py_int_of_Q now) = Ok m ->
  finish_url (py_int_of_Q now) parts pos v u = Ok c ->
  media_request c n -> get_media c now = Ok (Serve sv) ->
  (inject_Z (sv_time sv + v_dur v) <= mo_mpdur m + mo_mup m + 61)%Q.
Proof.
  intros now parts pos v u c m n sv x S Hd Hn Hnow Hx Hm HF MR H.
  assert (HU := mds_unt _ _ S). assert (HA := mds_ato _ _ S).
  destruct (finish_url_wf _ _ _ v u _ Hd Hn (proj1 (proj2 (proj2 (proj2 (proj2 HU))))) HF) as (W & B).
  destruct B as (b1&_&_&b4&_).
  destruct (modulo_cfg _ _ _ _ _ _ _ S Hd HF) as (A & E & _ & _ & _ & To & _).
  apply (proj1 (get_media_serve_iff _ n _ _ W MR)) in H.
  destruct H as ((_ & O & (_ & _ & T)) & ->).
  unfold in_time in T. rewrite b4, HA in T. destruct T as (T & _).
  specialize (O _ E).
  destruct (C19_modulo_table_pf _ _ _ Hx Hm) as (_ & _ & _ & _ & _ & _ & _ & EA).
  cbn [sv_time the_served]. unfold the_served; cbn [sv_time]. unfold media_start, media_time_at_ast. rewrite To.
  unfold seg_end in T. rewrite b1 in *. rewrite A in T.
  set (k := n - first_nr c) in *.
  replace (mo_ast m + (k + 1) * v_dur v) with (mo_ast m + (0 + k * v_dur v + v_dur v)) in T by lia.
  rewrite inject_Z_plus in T.
  assert (now < inject_Z (py_int_of_Q now) + 1)%Q.
  { rewrite py_int_of_Q_nonneg by auto. change 1%Q with (inject_Z 1). rewrite <- inject_Z_plus.
    apply Qlt_floor. }
  lra.
Qed.
Example ex_modulo_state : exists m, modulo_init 10 600516 = Ok m /\
  modulo_state (mkU (config_init "") None None [] None false (Some m) false) m.
Proof. eexists. split; [vm_compute; reflexivity|]. constructor; cbn; auto; try lia; repeat split. Qed.

(** Finding, stated for all sessions with the default start number: in an interval other
    than the first since the epoch the last-segment mark is never set. *)
Lemma C20_lmsg_never_pf : forall now parts pos v u c m n sv x,
  modulo_state u m -> 0 < v_dur v -> 0 < v_n v -> (0 <= now)%Q -> 1 <= x ->
  60 * x <= py_int_of_Q now - py_int_of_Q now mod (60 * x) ->
  modulo_init x (py_int_of_Q now) = Ok m ->
  finish_url (py_int_of_Q now) parts pos v u = Ok c ->
  media_request c n -> get_media c now = Ok (Serve sv) -> sv_lmsg sv = false.
Proof.
  intros now parts pos v u c m n sv x S Hd Hn Hnow Hx Hi Hm HF MR H.
  assert (HU := mds_unt _ _ S). assert (HA := mds_ato _ _ S). assert (HN := mds_snr _ _ S).
  destruct (finish_url_wf _ _ _ v u _ Hd Hn (proj1 (proj2 (proj2 (proj2 (proj2 HU))))) HF) as (W & B).
  destruct B as (b1&_&_&b4&b5&_).
  destruct (modulo_cfg _ _ _ _ _ _ _ S Hd HF) as (A & E & _ & _ & _ & To & L).
  apply (proj1 (get_media_serve_iff _ n _ _ W MR)) in H.
  destruct H as ((_ & O & (F & _ & T)) & ->).
  cbn [sv_lmsg the_served]. unfold the_served; cbn [sv_lmsg]. rewrite L.
  unfold Q_in. cbn [existsb]. rewrite orb_false_r.
  destruct (Qeq_bool (inject_Z n) _) eqn:Q; auto. exfalso. apply Qeq_bool_iff in Q.
  unfold in_time in T. rewrite b4, HA in T. destruct T as (T & _).
  assert (Fn : first_nr c = 0).
  { unfold first_nr. rewrite To, b5, HN. reflexivity. }
  destruct (C19_modulo_table_pf _ _ _ Hx Hm) as (P & r & Ep & Br & (q & Dq) & Tab & EM & EA).
  set (M := 60 * x) in *.
  assert (PM : (0 < inject_Z M)%Q) by (change 0%Q with (inject_Z 0); apply (proj2 (inject_Z_lt _ _)); unfold M; lia).
  assert (Er : py_int_of_Q now mod M = r).
  { rewrite Ep, Dq. rewrite Z.add_comm, Z.mod_add by (unfold M; lia). apply Z.mod_small. lia. }
  rewrite Er in Hi. assert (HP : M <= P) by lia.
  assert (NB : (now < inject_Z (P + M))%Q).
  { assert (py_int_of_Q now < P + M) by lia. rewrite py_int_of_Q_nonneg in H by auto.
    apply (proj1 (Qfloor_lt_iff _ _)) in H. exact H. }
  assert (AD : P <= mo_ast m /\ (inject_Z M * (2#10) <= mo_mpdur m)%Q).
  { destruct Tab as (R1 & R2 & R3 & R4 & R5). fold M in R1, R2, R3, R4, R5.
    destruct (Z.lt_ge_cases (10 * r) M); [destruct (R1 H) as (-> & ->); split; [lia|lra]|].
    destruct (Z.lt_ge_cases (10 * r) (3 * M)); [destruct (R2 ltac:(lia)) as (-> & ->); split; [lia|lra]|].
    destruct (Z.lt_ge_cases (10 * r) (5 * M)); [destruct (R3 ltac:(lia)) as (-> & ->); split; [lia|lra]|].
    destruct (Z.lt_ge_cases (10 * r) (9 * M)); [destruct (R4 ltac:(lia)) as (-> & ->); split; [lia|lra]|].
    destruct (R5 ltac:(lia)) as (-> & ->); split; [lia|lra]. }
  destruct AD as (AD1 & AD2).
  assert (D0 : (0 < inject_Z (v_dur v))%Q) by (change 0%Q with (inject_Z 0); apply (proj2 (inject_Z_lt _ _)); lia).
  (* seg_end = ast + (n - s + 1) d and (n+1) d = ast + mpdur *)
  assert (N1 : (inject_Z ((n + 1) * v_dur v) == inject_Z (mo_ast m) + mo_mpdur m)%Q).
  { rewrite inject_Z_mult, inject_Z_plus, Q. change (inject_Z 1) with 1%Q. field. lra. }
  unfold seg_end in T. rewrite Fn, b1, A in T.
  replace (mo_ast m + (n - 0 + 1) * v_dur v) with (mo_ast m + (n + 1) * v_dur v) in T by lia.
  rewrite inject_Z_plus, N1 in T. rewrite inject_Z_plus in NB.
  assert (X : (inject_Z M <= inject_Z P)%Q) by (apply (proj2 (inject_Z_le _ _)); auto).
  assert (Y : (inject_Z P <= inject_Z (mo_ast m))%Q) by (apply (proj2 (inject_Z_le _ _)); auto).
  lra.
Qed.

(** ** C21: time offset *)

(** adjusted_start_number and adjusted_pto are what the manifest announces as
    startNumber and presentationTimeOffset.  For a start number >= 0 and AST - t a
    multiple of d: the announced first number is the first one served, its media time is
    the announced offset, and every further number is d later. *)
Lemma C21_timeoffset_pf : forall c n now a ts k,
  wf_cfg c -> media_request c n -> c_ato c = Some a ->
  c_stop_time c = None -> c_last_nrs c = [] -> c_aet c = None ->
  0 <= c_start_nr c ->
  adjusted_start_number c = Ok k ->
  (forall sv, get_media c now = Ok (Serve sv) ->
     k <= n /\ sv_time sv * ts = adjusted_pto c 0 ts + (n - k) * c_seg_dur c * ts) /\
  (k <= n -> forall b, c_tsbd c = Some b ->
     (inject_Z (c_ast c + (n - k + 1) * c_seg_dur c) - a <= now
      <= inject_Z (c_ast c + (n - k + 2) * c_seg_dur c + b))%Q ->
     exists sv, get_media c now = Ok (Serve sv)).
Proof.
  intros c n now a ts k W M Ea Es El Ee Hs Hk.
  assert (Hd := wf_dur c W).
  assert (Fk : first_nr c = k).
  { assert (S := seg_start_nr_spec c Hd). unfold seg_start_nr in S.
    destruct (Z.eqb_spec (c_start_nr c) (-1)); [lia|]. congruence. }
  split.
  - intros sv H. apply (proj1 (get_media_serve_iff _ n _ _ W M)) in H.
    destruct H as ((_ & _ & (F & _)) & ->). rewrite Fk in F. split; auto.
    cbn [sv_time the_served]. unfold the_served; cbn [sv_time].
    unfold media_start, media_time_at_ast, adjusted_pto. rewrite Fk.
    destruct (c_timeoffset c); lia.
  - intros L b Eb (T1 & T2).
    assert (CC := C01_media_window_exact_pf c n now a b W M Ea Eb Es El Ee).
    apply CC. rewrite Fk. repeat split; auto; lra.
Qed.
Example ex_timeoffset :
  ex_get ["timeoffset_60"; "start_600"; "snr_3"; "testpic"; "V1"; "95.m4s"]%string 630 =
    Ok (Serve (mkServed 93 95 0 false 552 false)) /\
  ex_get ["timeoffset_60"; "start_600"; "snr_3"; "testpic"; "V1"; "92.m4s"]%string 630 =
    Ok (Refuse RBeforeFirst).
Proof. vm_compute. auto. Qed.

(** Finding: with the default start number (snr_-1, number 1 by the DASH standard) the
    announced number is start number + offset with -1 as start number, while segments are
    served from 1. *)
Lemma C21_snr_default_refuted_pf : exists c k,
  ex_cfg ["timeoffset_60"; "start_600"; "snr_-1"; "testpic"; "V1"; "1.m4s"]%string 640 = Ok c /\
  adjusted_start_number c = Ok k /\ first_nr c = 1 /\ k = 89 /\
  get_media c 640 = Ok (Serve (mkServed 91 1 0 false 540 false)).
Proof.
  do 2 eexists. split; [vm_compute; reflexivity|]. split; [vm_compute; reflexivity|].
  split; [reflexivity|]. split; [reflexivity|]. vm_compute. reflexivity.
Qed.
