(** Timing state, sidx contents. *)
From Verif Require Import Base BaseProofs BytesModel BytesProofs Mp4Model Mp4Proofs BoxSpec EmsgModel TtmlModel TimeModel
  MediaModel MediaSpec MediaProofs MediaProofs2 MediaProofs3 MediaProofs4.
From Coq Require Import ZifyBool ZifyNat.
Open Scope Z_scope.

Definition same3 (a b : mstate) : Prop :=
  ms_tfdt b = ms_tfdt a /\ ms_duration b = ms_duration a /\ ms_default_dur b = ms_default_dur a.
Lemma same3_trans : forall a b c, same3 a b -> same3 b c -> same3 a c.
Proof. unfold same3. intuition congruence. Qed.

Lemma lf_inv : forall p t pl st bs st1, lf p t pl st = Ok (bs, st1) ->
  exists out, process_leaf (m_class p) t (enc (Leaf t pl)) st = Ok (out, st1).
Proof. intros. unfold lf in H. bind_inv H. destruct a as [o s]. apply ok_pair in H. destruct H as [_ <-]. eauto. Qed.

Lemma lf_quiet : forall p t pl st bs st1, lf p t pl st = Ok (bs, st1) ->
  ~ In t [bstr "tfdt"; bstr "tfhd"; bstr "trun"] -> same3 st st1.
Proof.
  intros p t pl st bs st1 H N. apply lf_inv in H. destruct H as (out & H).
  unfold process_leaf in H. destruct (utf8_ok t); [|discriminate].
  cbn [m_class fc_method] in H. unfold m_method in H.
  destruct (bytes_eqb t (bstr "styp")).
  { unfold process_styp in H. bind_inv H. bind_inv H. bind_inv H. apply ok_pair in H. destruct H as [_ <-]. repeat split. }
  destruct (bytes_eqb t (bstr "tfhd")) eqn:E1. { apply bytes_eqb_eq in E1. subst. exfalso. apply N. simpl; auto. }
  destruct (bytes_eqb t (bstr "mfhd")).
  { unfold process_mfhd in H. destruct (mp_seg_nr p).
    - bind_inv H. apply ok_pair in H. destruct H as [_ <-]. repeat split.
    - apply ok_pair in H. destruct H as [_ <-]. repeat split. }
  destruct (bytes_eqb t (bstr "trun")) eqn:E2. { apply bytes_eqb_eq in E2. subst. exfalso. apply N. simpl; auto. }
  destruct (bytes_eqb t (bstr "saio")).
  { unfold process_saio in H. bind_inv H. bind_inv H. bind_inv H. destruct a1 as [b o].
    apply ok_pair in H. destruct H as [_ <-]. destruct o; repeat split. }
  destruct (bytes_eqb t (bstr "sidx")).
  { unfold process_sidx in H. apply ok_pair in H. destruct H as [_ <-]. repeat split. }
  destruct (bytes_eqb t (bstr "tfdt")) eqn:E3. { apply bytes_eqb_eq in E3. subst. exfalso. apply N. simpl; auto. }
  apply ok_pair in H. destruct H as [_ <-]. repeat split.
Qed.

Lemma decode_time_fun : forall pl a b, decode_time pl a -> decode_time pl b -> a = b.
Proof.
  intros pl a b A B. destruct A as [f t L R|v f t V L R].
  - remember (0 :: f ++ be32 t) as x eqn:E in B. destruct B as [f2 t2 L2 R2|v2 f2 t2 V2 L2 R2].
    + apply (f_equal (@tl Z)) in E. cbn [tl] in E. apply app_inj_len in E; [|lia]. destruct E as [_ E].
      apply (f_equal be_val) in E. rewrite !be32_val in E by auto. auto.
    + exfalso. apply (f_equal (hd 0)) in E. cbn [hd] in E. contradiction.
  - remember (v :: f ++ be64 t) as x eqn:E in B. destruct B as [f2 t2 L2 R2|v2 f2 t2 V2 L2 R2].
    + exfalso. apply (f_equal (hd 0)) in E. cbn [hd] in E. congruence.
    + apply (f_equal (@tl Z)) in E. cbn [tl] in E. apply app_inj_len in E; [|lia]. destruct E as [_ E].
      apply (f_equal be_val) in E. rewrite !be64_val in E by auto. auto.
Qed.

Lemma lf_tfdt : forall p pl t st bs st1, lf p (bstr "tfdt") pl st = Ok (bs, st1) -> decode_time pl t ->
  ms_tfdt st1 = Some (t + rq_shift (req_of p None)) /\ ms_duration st1 = ms_duration st /\
  ms_default_dur st1 = ms_default_dur st.
Proof.
  intros p pl t st bs st1 H D. apply lf_inv in H. destruct H as (out & H).
  unfold process_leaf in H. change (utf8_ok (bstr "tfdt")) with true in H. cbv iota in H.
  change (process_tfdt p (enc (Leaf (bstr "tfdt") pl)) st = Ok (out, st1)) in H.
  unfold process_tfdt in H. rewrite enc_leaf in H.
  set (hdr := be32 (8 + blen pl) ++ bstr "tfdt") in *.
  assert (HH : blen hdr = 8) by (apply hdr_len; reflexivity). clearbody hdr.
  change (match mp_timescale p with Some ts => mp_offset p * ts | None => 0 end)
    with (rq_shift (req_of p None)) in H.
  set (sh := rq_shift (req_of p None)) in *. clearbody sh.
  destruct D as [f t L R|v f t V L R].
  - rewrite byte8 in H by auto. rewrite bind_Ok in H. change (0 =? 0) with true in H. cbv iota in H.
    rewrite slice_hdr in H by (auto; lia).
    assert (E : bslice (12 - 8) (16 - 8) (0 :: f ++ be32 t) = be32 t).
    { change (0 :: f ++ be32 t) with ((0 :: f) ++ be32 t). rewrite <- (app_nil_r (be32 t)) at 1.
      apply bslice_len'; rewrite ?blen_cons, ?blen_be32; lia. }
    rewrite E, u32_ok, be32_val, bind_Ok in H by auto.
    destruct (t + sh <? 4294967296).
    + bind_inv H. apply ok_pair in H. destruct H as [_ <-]. repeat split.
    + bind_inv H. bind_inv H. bind_inv H. apply ok_pair in H. destruct H as [_ <-]. repeat split.
  - rewrite byte8 in H by auto. rewrite bind_Ok in H. destruct (Z.eqb_spec v 0); [contradiction|].
    rewrite slice_hdr in H by (auto; lia).
    assert (E : bslice (12 - 8) (20 - 8) (v :: f ++ be64 t) = be64 t).
    { change (v :: f ++ be64 t) with ((v :: f) ++ be64 t). rewrite <- (app_nil_r (be64 t)) at 1.
      apply bslice_len'; rewrite ?blen_cons, ?blen_be64; lia. }
    rewrite E, u64_ok, be64_val, bind_Ok in H by auto.
    bind_inv H. apply ok_pair in H. destruct H as [_ <-]. repeat split.
Qed.

Lemma lf_tfhd : forall p pl trex d st bs st1, lf p (bstr "tfhd") pl st = Ok (bs, st1) ->
  box_ok containers leaf_ok (Leaf (bstr "tfhd") pl) -> 0 <= ms_size_change st ->
  match ms_default_dur st with Some z => z | None => 0 end = trex -> tfhd_default trex pl d ->
  ms_tfdt st1 = ms_tfdt st /\ ms_duration st1 = ms_duration st /\
  match ms_default_dur st1 with Some z => z | None => 0 end = d.
Proof.
  intros p pl trex d st bs st1 H (_ & _ & _ & LO & _) HS TR D. apply lf_inv in H. destruct H as (out & H).
  unfold process_leaf in H. change (utf8_ok (bstr "tfhd")) with true in H. cbv iota in H.
  change (process_tfhd (enc (Leaf (bstr "tfhd") pl)) st = Ok (out, st1)) in H.
  apply (tfhd_leaf p) in H; auto. destruct H as (_ & ->).
  destruct D as [vf track a d rest LV LT LA B R|vf rest LV B].
  - assert (E : default_of (vf ++ track ++ a ++ be32 d ++ rest) = Some d).
    { unfold default_of. rewrite btake_len' by lia. rewrite B. f_equal.
      assert (S : bslice (8 + (if Z.testbit (be_val vf) 1 then 4 else 0)) (8 + (if Z.testbit (be_val vf) 1 then 4 else 0) + 4)
                   (vf ++ track ++ a ++ be32 d ++ rest) = be32 d).
      { replace (vf ++ track ++ a ++ be32 d ++ rest) with ((vf ++ track ++ a) ++ be32 d ++ rest) by (rewrite <- !app_assoc; auto).
        apply bslice_len'; rewrite ?blen_app, ?blen_be32; lia. }
      rewrite S. apply be32_val; auto. }
    rewrite E. repeat split.
  - assert (E : default_of (vf ++ rest) = None).
    { unfold default_of. rewrite btake_len' by lia. rewrite B. auto. }
    rewrite E. repeat split. auto.
Qed.

Lemma extra_flags : forall vf, (if flag (Z.land vf 16777215) 512 then 4 else 0)
  + (if flag (Z.land vf 16777215) 1024 then 4 else 0) + (if flag (Z.land vf 16777215) 2048 then 4 else 0)
  = sample_extra vf.
Proof.
  intros. unfold sample_extra.
  assert (F9 := flag_testbit vf 9 ltac:(lia)). change (2 ^ 9) with 512 in F9.
  assert (F10 := flag_testbit vf 10 ltac:(lia)). change (2 ^ 10) with 1024 in F10.
  assert (F11 := flag_testbit vf 11 ltac:(lia)). change (2 ^ 11) with 2048 in F11.
  rewrite F9, F10, F11. reflexivity.
Qed.
Lemma trun_each : forall vf dflt samples pre dur, Z.testbit vf 8 = true ->
  Forall (fun s : Z * bytes => 0 <= fst s < 4294967296 /\ blen (snd s) = sample_extra vf) samples ->
  trun_loop (List.length samples) (pre ++ List.concat (map (fun s : Z * bytes => be32 (fst s) ++ snd s) samples))
    (Z.land vf 16777215) dflt (blen pre) dur = Ok (dur + sumZ (map fst samples)).
Proof.
  intros vf dflt samples pre dur B. assert (F8 := flag_testbit vf 8 ltac:(lia)). change (2 ^ 8) with 256 in F8.
  rewrite B in F8. revert pre dur.
  induction samples as [|[d r] samples IH]; intros pre dur F; cbn [List.length trun_loop map List.concat fst snd].
  - unfold sumZ. cbn [fold_right]. f_equal. lia.
  - inversion F as [|x y H1 H2]; subst. cbn [fst snd] in H1. destruct H1 as [R L].
    rewrite F8. rewrite <- app_assoc. rewrite bslice_len' with (x := be32 d) by (rewrite ?blen_be32; lia).
    rewrite u32_ok, be32_val, !bind_Ok by auto. cbv iota beta.
    match goal with |- trun_loop _ _ _ _ ?e _ = _ =>
      replace e with (blen (pre ++ be32 d ++ r)) by (rewrite !blen_app, blen_be32, L, <- (extra_flags vf); lia) end.
    replace (pre ++ be32 d ++ r ++ List.concat (map (fun s : Z * bytes => be32 (fst s) ++ snd s) samples))
      with ((pre ++ be32 d ++ r) ++ List.concat (map (fun s : Z * bytes => be32 (fst s) ++ snd s) samples))
      by (rewrite <- !app_assoc; auto).
    rewrite IH by auto. unfold sumZ. cbn [fold_right]. f_equal. lia.
Qed.
Lemma trun_dflt : forall vf dflt n data pos dur, Z.testbit vf 8 = false ->
  trun_loop n data (Z.land vf 16777215) dflt pos dur =
  Ok (dur + match dflt with Some z => z | None => 0 end * Z.of_nat n).
Proof.
  intros vf dflt n data pos dur B. assert (F8 := flag_testbit vf 8 ltac:(lia)). change (2 ^ 8) with 256 in F8.
  rewrite B in F8. revert pos dur.
  induction n as [|n IH]; intros pos dur; cbn [trun_loop].
  - f_equal. lia.
  - rewrite F8. destruct dflt; rewrite bind_Ok; cbv iota beta; rewrite IH; f_equal; lia.
Qed.

Lemma lf_trun : forall p pl dflt total st bs st1, lf p (bstr "trun") pl st = Ok (bs, st1) ->
  match ms_default_dur st with Some z => z | None => 0 end = dflt -> trun_total dflt pl total ->
  ms_tfdt st1 = ms_tfdt st /\ ms_duration st1 = Some total /\ ms_default_dur st1 = ms_default_dur st.
Proof.
  intros p pl dflt total st bs st1 H DF T. apply lf_inv in H. destruct H as (out & H).
  unfold process_leaf in H. change (utf8_ok (bstr "trun")) with true in H. cbv iota in H.
  change (process_trun (enc (Leaf (bstr "trun") pl)) st = Ok (out, st1)) in H.
  unfold process_trun in H. rewrite enc_leaf in H.
  set (hdr := be32 (8 + blen pl) ++ bstr "trun") in *.
  assert (HH : blen hdr = 8) by (apply hdr_len; reflexivity). clearbody hdr.
  assert (K : forall vf cnt tot, bslice 8 12 (hdr ++ pl) = vf -> bslice 12 16 (hdr ++ pl) = be32 cnt -> blen vf = 4 ->
    0 <= cnt < 4294967296 ->
    trun_loop (Z.to_nat cnt) (hdr ++ pl) (Z.land (be_val vf) 16777215) (ms_default_dur st)
      (16 + trun_head (be_val vf)) 0 = Ok tot ->
    ms_tfdt st1 = ms_tfdt st /\ ms_duration st1 = Some tot /\ ms_default_dur st1 = ms_default_dur st).
  { intros vf cnt tot S1 S2 L R TL. rewrite S1, S2, !u32_ok, !bind_Ok, be32_val in H by (auto; reflexivity).
    assert (F0 := flag_testbit (be_val vf) 0 ltac:(lia)). change (2 ^ 0) with 1 in F0.
    assert (F2 := flag_testbit (be_val vf) 2 ltac:(lia)). change (2 ^ 2) with 4 in F2.
    assert (TH : 16 + (if flag (Z.land (be_val vf) 16777215) 1 then 4 else 0)
                 + (if flag (Z.land (be_val vf) 16777215) 4 then 4 else 0) = 16 + trun_head (be_val vf)).
    { rewrite F0, F2. unfold trun_head. lia. }
    rewrite TH, TL, bind_Ok in H. bind_inv H. apply ok_pair in H. destruct H as [_ <-]. repeat split. }
  destruct T as [vf hd samples LV LH B F N|vf hd samples LV LH B F N].
  - apply (K vf (Z.of_nat (List.length samples))); auto.
    + rewrite slice_hdr by lia. change (8 - 8) with 0. change (12 - 8) with 4. rewrite bslice_0. apply btake_len'. lia.
    + rewrite slice_hdr by lia. apply bslice_len'; rewrite ?blen_be32; lia.
    + lia.
    + rewrite Nat2Z.id.
      replace (hdr ++ vf ++ be32 (Z.of_nat (List.length samples)) ++ hd ++ List.concat (map (fun s : Z * bytes => be32 (fst s) ++ snd s) samples))
        with ((hdr ++ vf ++ be32 (Z.of_nat (List.length samples)) ++ hd) ++ List.concat (map (fun s : Z * bytes => be32 (fst s) ++ snd s) samples))
        by (rewrite <- !app_assoc; auto).
      replace (16 + trun_head (be_val vf)) with (blen (hdr ++ vf ++ be32 (Z.of_nat (List.length samples)) ++ hd))
        by (rewrite !blen_app, blen_be32; lia).
      rewrite trun_each; auto.
  - apply (K vf (Z.of_nat (List.length samples))); auto.
    + rewrite slice_hdr by lia. change (8 - 8) with 0. change (12 - 8) with 4. rewrite bslice_0. apply btake_len'. lia.
    + rewrite slice_hdr by lia. apply bslice_len'; rewrite ?blen_be32; lia.
    + lia.
    + rewrite Nat2Z.id. rewrite trun_dflt by auto. rewrite DF. f_equal.
Qed.

(** ** Lists of boxes *)
Lemma tr_boxes_app : forall p a b st bs st2, tr_boxes (lf p) (a ++ b) st = Ok (bs, st2) ->
  exists x y st1, tr_boxes (lf p) a st = Ok (x, st1) /\ tr_boxes (lf p) b st1 = Ok (y, st2) /\ bs = x ++ y.
Proof.
  induction a as [|k a IH]; intros b st bs st2 H.
  - exists [], bs, st. auto.
  - cbn [app tr_boxes] in *. bind_inv H. destruct a0 as [a1 sa]. bind_inv H. destruct a0 as [b1 sb].
    apply ok_pair in H. destruct H as [<- <-]. apply IH in E0. destruct E0 as (x & y & s1 & A & B & ->).
    exists (a1 ++ x), y, s1. split; [|split; [auto|rewrite app_assoc; auto]].
    cbn [tr_boxes]. rewrite ?E, bind_Ok, A. reflexivity.
Qed.
Lemma quiet_boxes : forall p ks st bs st1, tr_boxes (lf p) ks st = Ok (bs, st1) -> Forall untimed ks -> same3 st st1.
Proof.
  induction ks as [|k ks IH]; intros st bs st1 H F.
  - cbn [tr_boxes] in H. apply ok_pair in H. destruct H as [_ <-]. repeat split.
  - cbn [tr_boxes] in H. inversion F; subst. bind_inv H. destruct a as [a sa]. bind_inv H. destruct a0 as [b sb].
    apply ok_pair in H. destruct H as [_ <-]. apply IH in E0; auto. eapply same3_trans; [|exact E0].
    destruct H2 as [P N]. destruct k as [t pl|]; [|contradiction]. cbn [btype] in N. cbn [tr_box] in E.
    apply lf_quiet in E; auto. cbn [plain In] in *. intuition.
Qed.
Lemma tr_boxes_inv : forall p ks st bs st1, tr_boxes (lf p) ks st = Ok (bs, st1) -> boxes_ok containers leaf_ok ks ->
  0 <= ms_size_change st -> 0 <= ms_size_change st1.
Proof. intros. eapply tr_boxes_doc; eauto. Qed.
Lemma tr_boxes_cons : forall p k l st bs st2, tr_boxes (lf p) (k :: l) st = Ok (bs, st2) ->
  exists x y st1, tr_box (lf p) k st = Ok (x, st1) /\ tr_boxes (lf p) l st1 = Ok (y, st2) /\ bs = x ++ y.
Proof.
  intros. cbn [tr_boxes] in H. bind_inv H. destruct a as [a sa]. bind_inv H. destruct a0 as [b sb].
  apply ok_pair in H. destruct H as [<- <-]. eauto 10.
Qed.
Lemma tr_tops_app : forall p a b st g st2, tr_tops (m_class p) (lf p) (a ++ b) st = Ok (g, st2) ->
  exists x y st1, tr_tops (m_class p) (lf p) a st = Ok (x, st1) /\ tr_tops (m_class p) (lf p) b st1 = Ok (y, st2) /\
    g = x ++ y.
Proof.
  induction a as [|k a IH]; intros b st bs st2 H.
  - exists [], bs, st. auto.
  - cbn [app tr_tops] in *. bind_inv H. destruct a0 as [a1 sa]. bind_inv H. destruct a0 as [b1 sb].
    apply ok_pair in H. destruct H as [<- <-]. apply IH in E0. destruct E0 as (x & y & s1 & A & B & ->).
    exists ((btype k, a1) :: x), y, s1. split; [|split; auto].
    cbn [tr_tops]. rewrite ?E, bind_Ok, A. reflexivity.
Qed.

Lemma one_run_plain : forall f h r, one_run f h r -> fr_plain f.
Proof.
  intros f h r (q1 & q2 & q3 & q4 & E1 & E2 & F). unfold fr_plain. rewrite E1, E2.
  rewrite !Forall_app in *. destruct F as (A & B & C & D & G & H).
  assert (X : forall l, Forall untimed l -> Forall plain l) by (intros l; apply Forall_impl; intros ? [? _]; auto).
  repeat split; auto; constructor; auto; cbn; intuition discriminate.
Qed.

Lemma moof_state : forall p f h r t dd total st bs st1,
  one_run f h r -> decode_time (fr_tfdt f) t ->
  tfhd_default (match ms_default_dur st with Some z => z | None => 0 end) h dd -> trun_total dd r total ->
  box_ok containers leaf_ok (fr_moof f) -> 0 <= ms_size_change st ->
  tr_box (lf p) (fr_moof f) st = Ok (bs, st1) ->
  ms_tfdt st1 = Some (t + rq_shift (req_of p None)) /\ ms_duration st1 = Some total.
Proof.
  intros p f h r t dd total st bs st1 (q1 & q2 & q3 & q4 & E1 & E2 & F) D TD TT OK HS H.
  rewrite !Forall_app in F. destruct F as (F1 & F2 & F3 & F4 & F5 & F6).
  unfold fr_moof in *. rewrite E1, E2 in *.
  apply box_ok_node in OK. destruct OK as (_ & _ & _ & OK).
  apply (proj1 (boxes_ok_app _ _ _ _)) in OK. destruct OK as [OKa [OKt _]].
  apply box_ok_node in OKt. destruct OKt as (_ & _ & _ & OKt).
  apply (proj1 (boxes_ok_app _ _ _ _)) in OKt. destruct OKt as [OK1 _].
  apply (proj1 (boxes_ok_app _ _ _ _)) in OK1. destruct OK1 as [OKq [OKh _]].
  rewrite tr_node in H. bind_inv H. destruct a as [ks1 sz]. rename E into H1.
  destruct (8 + blen (encs ks1) <? 4294967296); [|discriminate].
  apply ok_pair in H. destruct H as [_ <-].
  apply tr_boxes_app in H1. destruct H1 as (x1 & y1 & s1 & A1 & H1 & _).
  assert (S1 := quiet_boxes _ _ _ _ _ A1 F1). assert (Z1 := tr_boxes_inv _ _ _ _ _ A1 OKa HS).
  apply tr_boxes_cons in H1. destruct H1 as (x2 & y2 & s2 & H1 & A2 & _).
  assert (S6 := quiet_boxes _ _ _ _ _ A2 F6).
  rewrite tr_node in H1. bind_inv H1. destruct a as [ks2 sy]. rename E into H2.
  destruct (8 + blen (encs ks2) <? 4294967296); [|discriminate].
  apply ok_pair in H1. destruct H1 as [_ <-].
  apply tr_boxes_app in H2. destruct H2 as (x3 & y3 & s3 & H3 & H2 & _).
  apply tr_boxes_app in H3. destruct H3 as (x4 & y4 & s4 & A3 & H3 & _).
  assert (S2 := quiet_boxes _ _ _ _ _ A3 F2). assert (Z2 := tr_boxes_inv _ _ _ _ _ A3 OKq Z1).
  apply tr_boxes_cons in H3. destruct H3 as (x5 & y5 & s5 & H3 & A4 & _).
  assert (S3 := quiet_boxes _ _ _ _ _ A4 F3).
  apply tr_boxes_cons in H2. destruct H2 as (x6 & y6 & s6 & H4 & H2 & _).
  apply tr_boxes_app in H2. destruct H2 as (x7 & y7 & s7 & A5 & H2 & _).
  assert (S4 := quiet_boxes _ _ _ _ _ A5 F4).
  apply tr_boxes_cons in H2. destruct H2 as (x8 & y8 & s8 & H5 & A6 & _).
  assert (S5 := quiet_boxes _ _ _ _ _ A6 F5).
  cbn [tr_box] in H3, H4, H5.
  destruct S1 as (P1 & P2 & P3). destruct S2 as (Q1 & Q2 & Q3).
  eapply lf_tfhd in H3; eauto. 2:{ rewrite Q3, P3. exact TD. }
  destruct H3 as (R1 & R2 & R3).
  destruct S3 as (T1 & T2 & T3).
  eapply lf_tfdt in H4; eauto. destruct H4 as (U1 & U2 & U3).
  destruct S4 as (V1 & V2 & V3).
  eapply lf_trun in H5; eauto. 2:{ rewrite V3, U3, T3, R3. exact TT. }
  destruct H5 as (W1 & W2 & W3). destruct S5 as (X1 & X2 & X3). destruct S6 as (Y1 & Y2 & Y3).
  split; congruence.
Qed.

(** top level *)
Definition quiet_top (b : box) : Prop := ~ In (btype b) [bstr "moof"; bstr "mdat"; bstr "tfdt"; bstr "tfhd"; bstr "trun"].
Lemma tops_inv : forall p l st g st1, segment_ok l -> tr_tops (m_class p) (lf p) l st = Ok (g, st1) ->
  0 <= ms_size_change st -> 0 <= ms_size_change st1.
Proof. intros. eapply tr_tops_doc; eauto. Qed.
Lemma quiet_tops : forall p l st g st1, segment_ok l -> Forall (fun b => ~ moof b) l ->
  tr_tops (m_class p) (lf p) l st = Ok (g, st1) -> same3 st st1.
Proof.
  induction l as [|k l IH]; intros st g st1 OK F H; cbn [tr_tops] in H.
  - apply ok_pair in H. destruct H as [_ <-]. repeat split.
  - destruct OK as [O1 O2]. inversion F; subst. bind_inv H. destruct a as [a sa]. bind_inv H. destruct a0 as [b sb].
    apply ok_pair in H. destruct H as [_ <-]. apply IH in E0; auto. eapply same3_trans; [|exact E0].
    unfold tr_top in E. destruct (bytes_in (btype k) (fc_top (m_class p))) eqn:B.
    2:{ apply ok_pair in E. destruct E as [_ <-]. repeat split. }
    apply (proj1 (bytes_in_iff _ _)) in B. cbn [m_class fc_top In] in B.
    destruct k as [t pl|t ks].
    + cbn [tr_box] in E. cbn [btype] in *. apply lf_quiet in E; auto. cbn [In].
      intros [<-|[<-|[<-|[]]]]; decompose [or] B; try discriminate; auto.
    + exfalso. apply box_ok_node in O1. destruct O1 as (_ & I2 & _). unfold moof in *. cbn [btype] in *.
      destruct I2 as [I2|[I2|[]]]; [auto|]. subst t. decompose [or] B; try discriminate; auto.
Qed.

(** size counted by finalize *)
Definition in_frag (b : box) : bool := bytes_in (btype b) [bstr "moof"; bstr "mdat"].
Lemma frag_size_eq : forall p l st g st1, segment_ok l -> tr_tops (m_class p) (lf p) l st = Ok (g, st1) ->
  frag_size g = blen (encs (filter in_frag (flat_map snd g))).
Proof.
  induction l as [|k l IH]; intros st g st1 OK H; cbn [tr_tops] in H.
  - apply ok_pair in H. destruct H as [<- _]. reflexivity.
  - destruct OK as [O1 O2]. bind_inv H. destruct a as [a sa]. bind_inv H. destruct a0 as [b sb].
    apply ok_pair in H. destruct H as [<- _]. apply IH in E0; auto.
    cbn [frag_size fold_right flat_map snd]. fold (frag_size b). rewrite filter_app, encs_app, blen_app, <- E0.
    assert (X : blen (encs (filter in_frag a)) = if bytes_in (btype k) [bstr "moof"; bstr "mdat"] then blen (encs a) else 0).
    { unfold tr_top in E. destruct (bytes_in (btype k) (fc_top (m_class p))) eqn:B.
      2:{ apply ok_pair in E. destruct E as [<- _]. cbn [filter]. unfold in_frag.
          destruct (bytes_in (btype k) [bstr "moof"; bstr "mdat"]); reflexivity. }
      destruct k as [t pl|t ks].
      - cbn [tr_box] in E. unfold lf in E. bind_inv E. destruct a0 as [o s]. apply ok_pair in E. destruct E as [<- _].
        cbn [btype]. unfold lf_boxes. destruct (bytes_eqb t (bstr "sidx")) eqn:EA.
        { apply bytes_eqb_eq in EA. subst. reflexivity. }
        destruct (bytes_eqb t (bstr "styp")) eqn:EB.
        { apply bytes_eqb_eq in EB. subst. cbn [filter]. unfold in_frag at 1. cbn [btype].
          change (bytes_in (bstr "styp") [bstr "moof"; bstr "mdat"]) with false. cbv iota.
          unfold events. destruct (create_scte35box _ _ _) as [[|z b1]|]; reflexivity. }
        cbn [filter]. unfold in_frag. cbn [btype]. destruct (bytes_in t [bstr "moof"; bstr "mdat"]); reflexivity.
      - rewrite tr_node in E. bind_inv E. destruct a0 as [ks1 s]. destruct (8 + blen (encs ks1) <? 4294967296); [|discriminate].
        apply ok_pair in E. destruct E as [<- _]. cbn [filter btype]. unfold in_frag. cbn [btype].
        destruct (bytes_in t [bstr "moof"; bstr "mdat"]); reflexivity. }
    rewrite X. cbn [fst]. destruct (bytes_in (btype k) [bstr "moof"; bstr "mdat"]); lia.
Qed.

Lemma tops_no_frag : forall p x pre d B d', top_changes (req_of p x) d pre B d' -> segment_ok pre ->
  Forall (fun b => ~ In (btype b) [bstr "moof"; bstr "mdat"]) pre ->
  Forall (fun b => ~ In (btype b) [bstr "moof"; bstr "mdat"]) B.
Proof.
  intros p x. induction pre as [|k pre IH]; intros d B d' TP OKp FP.
  - inversion TP; subst; constructor.
  - inversion FP as [|? ? NK FP2]; subst. destruct OKp as [O1 O2]. apply top_changes_cons in TP.
    destruct TP as (d1 & x1 & y & -> & TP & K). apply Forall_app. split; [|eapply IH; eauto].
    destruct K as [(I & K)|(_ & -> & _)]; [|constructor; auto].
    destruct k as [t pl|t ks].
    + cbn [btype] in *. inversion K; subst; try (constructor; auto; fail);
        try (exfalso; cbn [tops In] in I; decompose [or] I; try contradiction; discriminate).
      constructor; [exact NK|]. cbn [req_of rq_events]. unfold events.
      destruct (create_scte35box _ _ _) as [[|z0 b]|]; repeat constructor; cbn [btype In]; intuition discriminate.
    + exfalso. apply box_ok_node in O1. destruct O1 as (_ & I2 & _). cbn [btype] in *.
      cbn [containers tops In] in *. decompose [or] I2; subst; auto; decompose [or] I; try discriminate; auto.
Qed.

Lemma C36_sidx_lem : forall p ts pre f m h r t dd total out st,
  segment_ok (seg pre f m []) -> mp_is_ttml p = false -> mp_timescale p = Some ts -> mp_insert_sidx p = true ->
  Forall (fun b => ~ In (btype b) [bstr "moof"; bstr "mdat"]) pre ->
  one_run f h r -> decode_time (fr_tfdt f) t ->
  tfhd_default (match mp_default_dur p with Some z => z | None => 0 end) h dd -> trun_total dd r total ->
  media_filter p (encs (seg pre f m [])) = Ok (out, st) ->
  exists A f',
    out = encs (A ++ Leaf (bstr "sidx")
                  (sidx_fields ts (t + mp_offset p * ts)
                     (blen (enc (fr_moof f')) + blen (enc (Leaf (bstr "mdat") m))) total)
                :: fr_moof f' :: [Leaf (bstr "mdat") m]) /\
    Forall (fun b => ~ In (btype b) [bstr "moof"; bstr "mdat"]) A /\
    decode_time (fr_tfdt f') (t + mp_offset p * ts) /\
    0 <= ts < 4294967296 /\ blen (enc (fr_moof f')) + blen (enc (Leaf (bstr "mdat") m)) < 4294967296 /\
    0 <= total < 4294967296.
Proof.
  intros p ts pre f m h r t dd total out st OK NT TS IS FP OR D TD TT H.
  assert (PL := one_run_plain _ _ _ OR).
  apply media_filter_run in H; auto. destruct H as (OK2 & g & R & F).
  unfold run, prepared, prepared_size in *. rewrite NT in *.
  assert (HS : 0 <= ms_size_change (m_init p None)) by (cbn; lia).
  assert (TY := top_types _ _ _ _ _ OK R HS).
  destruct (tr_tops_doc _ _ _ _ _ HS OK R) as (TC & _ & _).
  assert (FS := frag_size_eq _ _ _ _ _ OK R).
  destruct (finalize_boxes _ _ _ _ TY F) as (l2 & INS & -> & WX & RG).
  destruct (RG IS) as (ts' & ept & dur & T1 & T2 & T3 & R1 & R2 & R3 & R4).
  rewrite TS in T1. injection T1 as <-.
  assert (NM : Forall (fun b => ~ moof b) pre).
  { eapply Forall_impl; [|exact FP]. cbv beta. unfold moof. intros b N E. apply N. rewrite E. simpl; auto. }
  (* state *)
  unfold seg in *.
  apply (proj1 (boxes_ok_app _ _ _ _)) in OK. destruct OK as [OKp [OKm _]].
  assert (R' := R). apply tr_tops_app in R'. destruct R' as (x & y & s1 & A1 & A2 & _).
  assert (Z1 := tops_inv _ _ _ _ _ OKp A1 HS).
  assert (S1 := quiet_tops _ _ _ _ _ OKp NM A1). destruct S1 as (_ & _ & S1).
  cbn [tr_tops] in A2. bind_inv A2. destruct a as [a sa]. bind_inv A2. destruct a0 as [b sb].
  apply ok_pair in A2. destruct A2 as [_ ->].
  bind_inv E0. destruct a0 as [c sc]. rewrite ?bind_Ok in E0. apply ok_pair in E0. destruct E0 as [_ ->].
  assert (Q : same3 sa st).
  { change (tr_top (m_class p) (lf p) (Leaf (bstr "mdat") m) sa) with (lf p (bstr "mdat") m sa) in E1.
    apply lf_quiet in E1; auto. cbn [In]. intuition discriminate. }
  change (tr_top (m_class p) (lf p) (fr_moof f) s1) with (tr_box (lf p) (fr_moof f) s1) in E.
  assert (MS : ms_tfdt sa = Some (t + rq_shift (req_of p None)) /\ ms_duration sa = Some total).
  { eapply moof_state; eauto. rewrite S1. exact TD. }
  destruct Q as (Q1 & Q2 & _). destruct MS as [M1 M2].
  assert (RS : rq_shift (req_of p None) = mp_offset p * ts) by (cbn [req_of rq_shift]; rewrite TS; auto).
  rewrite RS in M1.
  assert (ept = t + mp_offset p * ts) by congruence. assert (dur = total) by congruence. subst ept dur.
  (* boxes *)
  change (ms_ttml_size (m_init p None)) with (@None Z) in TC.
  apply top_changes_app in TC. destruct TC as (d & B & y' & EF & TP & TC).
  apply top_changes_cons in TC. destruct TC as (d' & x' & y2 & -> & TC & K).
  destruct K as [(_ & K)|(K & _)]; [|exfalso; apply K; simpl; auto].
  apply top_changes_cons in TC. destruct TC as (d2 & x2 & B2 & -> & TC & K2).
  destruct K2 as [(_ & K2)|(K2 & _)]; [|exfalso; apply K2; simpl; auto].
  apply mdat_change in K2. destruct K2 as [-> ->].
  inversion TC; subst B2.
  apply fragment_change in K; auto.
  destruct K as (f' & t' & g' & -> & _ & _ & _ & _ & _ & _ & D1 & D2 & _).
  assert (t' = t) by (eapply decode_time_fun; eauto). subst t'. rewrite RS in D2.
  assert (FB : Forall (fun b => ~ In (btype b) [bstr "moof"; bstr "mdat"]) B).
  { eapply tops_no_frag; eauto. }
  assert (FE : filter in_frag (flat_map snd g) = [fr_moof f'; Leaf (bstr "mdat") m]).
  { rewrite EF, filter_app.
    assert (X : filter in_frag B = []).
    { clear - FB. induction FB as [|b l Hb Hl IH]; auto. cbn [filter]. unfold in_frag at 1.
      destruct (bytes_in (btype b) [bstr "moof"; bstr "mdat"]) eqn:E; auto.
      apply (proj1 (bytes_in_iff _ _)) in E. contradiction. }
    rewrite X. reflexivity. }
  rewrite FE in FS.
  assert (FS' : frag_size g = blen (enc (fr_moof f')) + blen (enc (Leaf (bstr "mdat") m))).
  { rewrite FS. cbn [encs]. rewrite app_nil_r, blen_app. reflexivity. }
  rewrite EF in INS.
  assert (L2 : l2 = B ++ extras p st (frag_size g) ++ [fr_moof f'; Leaf (bstr "mdat") m]).
  { assert (NMD : ~ moof (Leaf (bstr "mdat") m)) by (unfold moof; cbn [btype]; discriminate).
    destruct INS as [(a0 & m0 & b0 & E0 & Hm & Hb & ->)|(FF & _)].
    - cbn [app] in E0. apply app_eq_app in E0. destruct E0 as (l & [(X1 & X2)|(X1 & X2)]).
      + destruct l as [|k l]; cbn [app] in X2.
        * injection X2 as -> ->. rewrite app_nil_r in X1. subst. reflexivity.
        * exfalso. injection X2 as <- ->. apply Forall_app in Hb. destruct Hb as [_ Hb]. inversion Hb as [|? ? Y1]; subst.
          apply Y1. reflexivity.
      + destruct l as [|k l]; cbn [app] in X2.
        * injection X2 as <- <-. rewrite app_nil_r in X1. subst. reflexivity.
        * injection X2 as <- X2. destruct l as [|k2 l]; cbn [app] in X2.
          { injection X2 as <- <-. contradiction. }
          { injection X2 as <- X2. destruct l; discriminate. }
    - exfalso. apply Forall_app in FF. destruct FF as [_ FF]. inversion FF as [|? ? Y1]; subst. apply Y1. reflexivity. }
  subst l2. unfold extras. rewrite IS, TS, T2, T3, FS'.
  exists (B ++ (if mp_emsg_last p then [Leaf (bstr "emsg") (emsg_payload (last_event p))] else [])), f'.
  split; [rewrite <- !app_assoc; reflexivity|].
  split.
  { apply Forall_app. split; auto. destruct (mp_emsg_last p); repeat constructor. cbn [btype In]. intuition discriminate. }
  split; [exact D2|]. split; [exact R1|]. split; [rewrite <- FS'; apply R3|exact R4].
Qed.
