(** Proofs about ProxyModel.v. *)
From Coq Require Import Lqa ZifyBool ZifyNat.
From Verif Require Import Base BaseProofs ConfigModel ProxyModel ProxySpec.
Open Scope Z_scope.

Ltac qb :=
  repeat match goal with
  | H : Qltb _ _ = true |- _ => apply (proj1 (Qltb_true _ _)) in H
  | H : Qltb _ _ = false |- _ => apply (proj1 (Qltb_false _ _)) in H
  | H : Qleb _ _ = true |- _ => apply (proj1 (Qleb_true _ _)) in H
  | H : Qleb _ _ = false |- _ => apply (proj1 (Qleb_false _ _)) in H
  end.

Lemma seg_start_nr_spec : forall c, 0 < c_seg_dur c -> seg_start_nr c = Ok (first_nr c).
Proof.
  intros c H. unfold seg_start_nr, first_nr, adjusted_start_number.
  destruct (c_start_nr c =? -1); auto.
  destruct (c_timeoffset c); auto.
  rewrite py_div_ok by lia. reflexivity.
Qed.

Lemma stop_number_spec : forall c, wf_cfg c ->
  (c_stop_time c = None /\ stop_number c = Ok None) \/
  exists k, stop_limit c k /\ stop_number c = Ok (Some k).
Proof.
  intros c W. unfold stop_number. destruct (c_stop_time c) eqn:E; [right|left; auto].
  assert (HS : has_stop c) by (unfold has_stop; congruence).
  destruct (wf_stop c W HS) as (m & Hm).
  assert (D := wf_dur c W).
  unfold adjusted_start_number. rewrite Hm.
  destruct (Z.eqb_spec (c_seg_dur c) 0) as [Z0|Z0]; [lia|].
  unfold stop_limit, first_nr.
  destruct (c_timeoffset c).
  - rewrite py_div_ok by lia. simpl.
    eexists. split; [split; [auto|exists m; split; [auto|reflexivity]]|].
    destruct (Z.eqb_spec (c_start_nr c) (-1)) as [Es|Es].
    + rewrite Es. reflexivity.
    + f_equal. f_equal. lia.
  - simpl. eexists. split; [split; [auto|exists m; split; [auto|reflexivity]]|].
    destruct (Z.eqb_spec (c_start_nr c) (-1)) as [Es|Es].
    + rewrite Es. reflexivity.
    + f_equal. f_equal. lia.
Qed.

Lemma stop_limit_fun : forall c k1 k2, stop_limit c k1 -> stop_limit c k2 -> k1 = k2.
Proof.
  intros c k1 k2 (_ & m1 & E1 & ->) (_ & m2 & E2 & ->).
  rewrite E1 in E2. injection E2 as ->. reflexivity.
Qed.

Lemma loop_position_spec : forall c t, 0 < c_seg_dur c -> 0 < c_vod_n c ->
  loop_position c t = Ok (c_vod_first c + loop_index c t, loop_start c t).
Proof.
  intros c t Hd Hn. unfold loop_position, loop_index, loop_start.
  assert (HL : 0 < c_seg_dur c * c_vod_n c) by (apply Z.mul_pos_pos; auto).
  rewrite py_div_ok by lia. rewrite py_mod_ok by lia. cbn [bind].
  rewrite py_div_ok by lia. cbn [bind].
  set (d := c_seg_dur c) in *. set (N := c_vod_n c) in *.
  assert (E : (t mod (d * N)) / d = (t / d) mod N).
  { rewrite Z.rem_mul_r by lia.
    rewrite (Z.mul_comm d ((t / d) mod N)), Z.div_add by lia.
    rewrite (Z.div_small (t mod d)) by (apply Z.mod_pos_bound; lia). lia. }
  rewrite E.
  assert (B : 0 <= (t / d) mod N < N) by (apply Z.mod_pos_bound; lia).
  replace ((t / d) mod N + c_vod_first c - c_vod_first c) with ((t / d) mod N) by lia.
  destruct (Z.leb_spec 0 ((t / d) mod N)); [|lia].
  destruct (Z.ltb_spec ((t / d) mod N) N); [|lia]. simpl.
  f_equal. f_equal; [lia|].
  assert (t = (d * N) * (t / (d * N)) + t mod (d * N)) by (apply Z.div_mod; lia). lia.
Qed.

(** What is delivered for number [n]. *)
Definition the_served (c : config) (n : Z) (emsg : bool) : served :=
  mkServed (c_vod_first c + loop_index c (media_start c n)) n
           (loop_start c (media_start c n))
           (Q_in n (c_last_nrs c)) (media_start c n) emsg.

Lemma segment_reply_total : forall c n now, wf_cfg c ->
  (available c n now /\ segment_reply c now n = Ok (Serve (the_served c n (c_emsg_last c)))) \/
  (~ available c n now /\ exists r, segment_reply c now n = Ok (Refuse r)).
Proof.
  intros c n now W.
  assert (Hd := wf_dur c W). assert (Hn := wf_n c W).
  destruct (wf_tsbd c W) as (b & Hb).
  unfold segment_reply. rewrite seg_start_nr_spec by auto. cbn [bind].
  destruct (Z.ltb_spec n (first_nr c)) as [L|L].
  { right. split; [intros (A & _); lia|eauto]. }
  assert (Hstop := stop_number_spec c W).
  set (sn := stop_number c) in *.
  assert (HS : exists stop, sn = Ok stop /\
     (truthy stop = true <-> stop_active c) /\
     (truthy stop && (match stop with Some k => k <=? n | None => false end) = false <->
       (forall k, stop_limit c k -> k <> 0 -> n < k))).
  { destruct Hstop as [(E & ->)|(k & Hk & ->)].
    - exists None. split; auto. simpl. split.
      + split; [discriminate|]. intros (k & (HS & _) & _). contradiction.
      + split; auto. intros _ k (HS & _). contradiction.
    - exists (Some k). split; auto. cbn [truthy]. split.
      + split.
        * intros T. exists k. split; auto. lia.
        * intros (k' & Hk' & N0). rewrite (stop_limit_fun c k k'); auto. lia.
      + split.
        * intros T k' Hk' N0. rewrite (stop_limit_fun c k k') in T; auto. lia.
        * intros T. destruct (Z.eqb_spec k 0); [reflexivity|]. simpl.
          assert (n < k) by (apply T; auto). lia. }
  destruct HS as (stop & -> & Hact & Hlim). cbn [bind].
  destruct (truthy stop && match stop with Some k => k <=? n | None => false end) eqn:Estop.
  { right. split; [|eauto]. intros (_ & (A & _) & _).
    apply (proj2 Hlim) in A. congruence. }
  assert (Hstopok := proj1 Hlim eq_refl).
  assert (HB : exists beyond, match c_last_nrs c with
     | [] => Ok false
     | _ => let* l := py_last (c_last_nrs c) in Ok (Qltb l (inject_Z n))
     end = Ok beyond /\
     (beyond = false <-> (c_last_nrs c <> [] -> (inject_Z n <= last (c_last_nrs c) 0)%Q))).
  { destruct (c_last_nrs c) as [|q l] eqn:E.
    - exists false. split; auto. split; auto. intros _ K. congruence.
    - rewrite (py_last_ok (q :: l) 0%Q) by discriminate. cbn [bind].
      eexists. split; [reflexivity|].
      rewrite Qltb_false. split; auto. intros K. apply K. discriminate. }
  destruct HB as (beyond & -> & Hbey). cbn [bind].
  destruct beyond.
  { right. split; [|eauto]. intros (_ & (_ & A) & _).
    apply (proj2 Hbey) in A. discriminate. }
  assert (Hlast := proj1 Hbey eq_refl).
  assert (Et : (n - first_nr c) * c_seg_dur c + adjusted_pto c 0 1 = media_start c n).
  { unfold media_start, adjusted_pto, media_time_at_ast. destruct (c_timeoffset c); lia. }
  assert (Ea : (n - first_nr c) * c_seg_dur c + adjusted_pto c 0 1 + c_seg_dur c
               - adjusted_pto c 0 1 + c_ast c = seg_end c n).
  { unfold seg_end. lia. }
  cbn [bind]. rewrite Ea, Et.
  destruct (c_ato c) as [a|] eqn:Eato.
  - destruct (Qltb now (inject_Z (seg_end c n) - a)) eqn:E1; cbn [bind]; qb.
    { right. split; [|eauto]. intros (_ & _ & T). unfold in_time in T. rewrite Eato in T.
      lra. }
    rewrite Hb. cbn [bind].
    destruct (Qltb (inject_Z (seg_end c n + c_seg_dur c + b)) now) eqn:E2;
      destruct (truthy stop) eqn:Etr; cbn [bind negb andb]; qb.
    + left. split.
      * split; [lia|]. split; [split; auto|]. unfold in_time. rewrite Eato. split; auto.
        left. apply Hact. auto.
      * rewrite loop_position_spec by auto. reflexivity.
    + right. split; [|eauto]. intros (_ & _ & T). unfold in_time in T. rewrite Eato in T.
      destruct T as (_ & [T|T]).
      * apply Hact in T. congruence.
      * specialize (T b Hb). lra.
    + left. split.
      * split; [lia|]. split; [split; auto|]. unfold in_time. rewrite Eato. split; auto.
        left. apply Hact. auto.
      * rewrite loop_position_spec by auto. reflexivity.
    + left. split.
      * split; [lia|]. split; [split; auto|]. unfold in_time. rewrite Eato. split; auto.
        right. intros b' Hb'. rewrite Hb in Hb'. injection Hb' as ->. auto.
      * rewrite loop_position_spec by auto. reflexivity.
  - left. cbn [bind]. split.
    + split; [lia|]. split; [split; auto|]. unfold in_time. rewrite Eato. auto.
    + rewrite loop_position_spec by auto. reflexivity.
Qed.

Lemma first_segment_ast_spec : forall c now,
  Qltb now (first_segment_ast c) = false <-> session_started c now.
Proof.
  intros c now. rewrite Qltb_false. unfold first_segment_ast, session_started.
  destruct (c_ato c); reflexivity.
Qed.

Lemma aet_spec : forall c now,
  match c_aet c with
  | None => false
  | Some e => Qltb (e + 60)%Q (inject_Z (py_int_of_Q now))
  end = false <-> session_not_over c now.
Proof.
  intros c now. unfold session_not_over. destruct (c_aet c) as [e|].
  - rewrite Qltb_false. split.
    + intros H e' E. injection E as <-. exact H.
    + intros H. apply H. reflexivity.
  - split; auto. intros _ e E. discriminate.
Qed.

Definition servable (c : config) (n : Z) (now : Q) : Prop :=
  session_started c now /\ session_not_over c now /\ available c n now.

(** Full characterisation of get_media for ordinary media requests. *)
Lemma get_media_total : forall c n now, wf_cfg c -> media_request c n ->
  (servable c n now /\ get_media c now = Ok (Serve (the_served c n (c_emsg_last c)))) \/
  (~ servable c n now /\ exists r, get_media c now = Ok (Refuse r)).
Proof.
  intros c n now W M. destruct M as [E1 E2 E3 E4].
  unfold get_media. rewrite E1.
  change (negb (str_in ".m4s" [".m4s"%string; ".jpg"%string])) with false. cbv iota.
  destruct (Qltb now (first_segment_ast c)) eqn:Ef.
  { right. split; [|eauto]. intros (A & _). apply (proj2 (first_segment_ast_spec c now)) in A. congruence. }
  assert (Hs := proj1 (first_segment_ast_spec c now) Ef).
  destruct (match c_aet c with
  | None => false
  | Some e => Qltb (e + 60)%Q (inject_Z (py_int_of_Q now))
  end) eqn:Ee.
  { right. split; [|eauto]. intros (_ & A & _). apply (proj2 (aet_spec c now)) in A. congruence. }
  assert (Hn := proj1 (aet_spec c now) Ee).
  change ((".m4s" =? ".m4s")%string) with true. cbv iota.
  assert (G : get_m4s c now = process_media_segment c now).
  { unfold get_m4s. destruct (c_multi_url c) as [|u [|]] eqn:Eu; try reflexivity.
    exfalso. apply (E4 u). reflexivity. }
  rewrite G. unfold process_media_segment. rewrite E2. cbn [bind].
  destruct (segment_reply_total c n now W) as [(A & ->)|(A & r & ->)]; cbn [bind].
  - left. split; [split; auto|]. destruct (c_reps c); [congruence|reflexivity].
  - right. split; [|eauto]. intros (_ & _ & K). contradiction.
Qed.

Lemma get_media_serve_iff : forall c n now sv, wf_cfg c -> media_request c n ->
  (get_media c now = Ok (Serve sv) <->
   servable c n now /\ sv = the_served c n (c_emsg_last c)).
Proof.
  intros c n now sv W M.
  destruct (get_media_total c n now W M) as [(A & E)|(A & r & E)]; rewrite E; split.
  - intros H. injection H as <-. auto.
  - intros (_ & ->). reflexivity.
  - discriminate.
  - intros (K & _). contradiction.
Qed.
