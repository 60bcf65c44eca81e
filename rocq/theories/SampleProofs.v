(** The samples of a stored segment are those of the segment sent (C84). *)
From Coq Require Import ZifyBool ZifyNat.
From Verif Require Import Base BaseProofs BytesModel BytesProofs BoxSpec Mp4Proofs MediaSpec MediaProofs
  MediaProofs2 MediaProofs3 ChunkSpec SampleSpec.
From Verif Require MediaProofs5.
Open Scope Z_scope.

(** ** Leaves of other types *)
Definition other (b : box) : Prop := inert b /\ ~ In (btype b) opened.
Lemma other_kid : forall r d k k', kid_change r d k k' -> other k -> other k'.
Proof.
  intros r d k k' (D & T & _) (I & O). destruct k as [t p|t ks]; [|destruct I].
  split; [|rewrite T; exact O]. inversion D; subst; cbn [inert] in *; exact I.
Qed.
Lemma other_kids : forall r d a b, Forall2 (kid_change r d) a b -> Forall other a -> Forall other b.
Proof.
  induction 1 as [|k k' a b C H IH]; intros F; [constructor|]. inversion F; subst.
  constructor; [eapply other_kid; eauto|auto].
Qed.
Lemma mdat_change : forall r d m bs d', doc_change r d (Leaf (bstr "mdat") m) bs d' -> bs = [Leaf (bstr "mdat") m] /\ d' = d.
Proof. intros r d m bs d' H. inversion H; subst. auto. Qed.
Lemma other_top : forall r b d bs d', Forall other (rq_events r) -> other b -> doc_change r d b bs d' -> d' = d /\ Forall other bs.
Proof.
  intros r b d bs d' EV O H. assert (O' := O). destruct O as (I & N).
  inversion H; subst; cbn [inert btype] in *; try contradiction;
    try (exfalso; apply (proj1 I); cbn [In]; auto 10; fail);
    try (split; [reflexivity|]; constructor; [|constructor]; split; [exact I|exact N]).
  - split; [reflexivity|]. constructor.
  - split; [reflexivity|]. constructor; [split; [exact I|exact N]|exact EV].
Qed.
Lemma other_tops : forall r l d l' d', Forall other (rq_events r) -> Forall other l -> top_changes r d l l' d' ->
  d' = d /\ Forall other l'.
Proof.
  induction l as [|b l IH]; intros d l' d' EV F H.
  - inversion H; subst. split; [reflexivity|constructor].
  - inversion F; subst. apply top_changes_cons in H. destruct H as (d1 & x & y & -> & T & [(_ & C)|(_ & -> & ->)]).
    + apply other_top in C; auto. destruct C as (-> & C). apply IH in T; auto. destruct T as (-> & T).
      split; [reflexivity|]. apply Forall_app. auto.
    + apply IH in T; auto. destruct T as (-> & T). split; [reflexivity|]. constructor; auto.
Qed.
Lemma other_not_moof : forall b, other b -> ~ moof b.
Proof. intros b (_ & N) M. apply N. red in M. rewrite M. cbn [opened In]. auto. Qed.
Lemma others_ok : forall l, wf_boxes l -> Forall other l -> boxes_ok opened any_payload l.
Proof.
  induction l as [|b l IH]; intros W F; [exact I|]. inversion F as [|? ? (A & B) F']; subst. destruct W as (W1 & W2). split; [|auto].
  destruct b as [t p|t ks]; [|destruct A]. destruct W1 as (W1 & _ & W3 & W4). repeat split; auto.
Qed.
Lemma inert_others : forall l, Forall inert l -> boxes_ok opened any_payload l -> Forall other l.
Proof.
  induction l as [|b l IH]; intros F W; [constructor|]. inversion F; subst. destruct W as (W1 & W2). constructor; [|auto].
  split; [assumption|]. destruct b as [t p|t ks]; [|contradiction]. exact (proj1 (proj2 W1)).
Qed.
Lemma others_inert : forall l, Forall other l -> Forall inert l.
Proof. intros l H. eapply Forall_impl; [|exact H]. intros b K. exact (proj1 K). Qed.

(** ** The track run *)
Definition moved (r : run) (d : Z) : run :=
  mk_run (rn_version r) (rn_flags r) (match rn_offset r with Some o => Some (o + d) | None => None end) (rn_first r) (rn_entries r).
Lemma vf_val : forall v f, 0 <= v < 256 -> 0 <= f < 16777216 -> be_val (be32 (v * 16777216 + f)) = v * 16777216 + f.
Proof. intros. apply be32_val. lia. Qed.
Lemma vf_bit0 : forall v f, Z.testbit (v * 16777216 + f) 0 = Z.testbit f 0.
Proof.
  intros. rewrite !Z.bit0_odd. rewrite Z.odd_add, Z.odd_mul. change (Z.odd 16777216) with false. rewrite Bool.andb_false_r. destruct (Z.odd f); reflexivity.
Qed.
Lemma s32_inj : forall a b, -2147483648 <= a < 2147483648 -> -2147483648 <= b < 2147483648 -> s32 a = s32 b -> a = b.
Proof.
  intros a b A B H. unfold s32 in H. apply (f_equal be_val) in H.
  rewrite !be32_val in H by (apply Z.mod_pos_bound; lia). 
  assert (E : forall z, -2147483648 <= z < 2147483648 -> z mod 4294967296 = z + (if z <? 0 then 4294967296 else 0)).
  { intros z Hz. destruct (z <? 0) eqn:S.
    - symmetry. apply (Zmod_unique z 4294967296 (-1)); lia.
    - symmetry. apply (Zmod_unique z 4294967296 0); lia. }
  rewrite !E in H by lia. destruct (a <? 0) eqn:SA, (b <? 0) eqn:SB; lia.
Qed.
Lemma run_change : forall r d u o bs d', run_ok u -> rn_offset u = Some o -> 0 <= d ->
  doc_change r d (Leaf (bstr "trun") (run_payload u)) bs d' ->
  d' = d /\ bs = [Leaf (bstr "trun") (run_payload (moved u d))] /\ run_ok (moved u d).
Proof.
  intros r d u o bs d' OK O D0 H.
  destruct OK as (V & F & W & FI & B0 & B2 & C & E).
  assert (KEEP : d = 0 -> moved u d = u).
  { intros ->. unfold moved. rewrite O, Z.add_0_r, <- O. destruct u; reflexivity. }
  assert (OKU : run_ok u) by (repeat split; auto; apply V || apply F || apply C).
  inversion H as [| | | | | | | |? p K Q1 Q2 Q3|? vf cnt o' rest DP L1 L2 BT R1 R2 Q1 Q2 Q3| | | | |]; subst; try discriminate.
  - exfalso. match goal with N : ~ In _ special |- _ => apply N; simpl; auto 10 end.
  - destruct K as [-> |K].
    + rewrite KEEP by reflexivity. auto.
    + exfalso. unfold run_payload in K. rewrite btake_app_l in K by (rewrite blen_be32; lia). rewrite btake_all in K by (rewrite blen_be32; lia).
      rewrite vf_val, vf_bit0, B0, O in K by auto. discriminate.
  - match goal with K : vf ++ _ = run_payload u |- _ => rename K into EQ end.
    unfold run_payload in EQ. rewrite O in EQ. cbn [opt_s32] in EQ. change (be32 (o mod 4294967296)) with (s32 o) in EQ.
    apply app_inj_len in EQ; [|rewrite blen_be32; exact L1]. destruct EQ as (-> & EQ).
    apply app_inj_len in EQ; [|rewrite blen_be32; exact L2]. destruct EQ as (-> & EQ).
    apply (app_inj_len (s32 o') rest (s32 o)) in EQ; [|reflexivity]. destruct EQ as (EO & ->).
    rewrite O in W. cbn [within] in W.
    assert (o' = o) by (apply s32_inj; auto). subst o'.
    split; [reflexivity|]. split.
    + unfold moved, run_payload. rewrite O. reflexivity.
    + unfold moved. rewrite O. repeat split; cbn [rn_version rn_flags rn_offset rn_first rn_entries within has]; auto; try (apply V || apply F || apply C || lia).
      rewrite B0, O. reflexivity.
Qed.

(** ** The media data *)
Lemma samples_at : forall d h file file' s P P' M Y Y', file = P ++ M ++ Y -> file' = P' ++ M ++ Y' ->
  forall l first time o, Forall (fun e => 0 <= entry_size d h e) l -> 0 <= o ->
    o + fold_right (fun e a => entry_size d h e + a) 0 l <= blen M ->
  entries_samples d h file' first l (time + s) (blen P' + o) =
  map (later s) (entries_samples d h file first l time (blen P + o)).
Proof.
  intros d h file file' s P P' M Y Y' E E'. induction l as [|e l IH]; intros first time o F O H; [reflexivity|].
  inversion F; subst. cbn [entries_samples map fold_right] in *. unfold later at 1. cbn [ms_data ms_time ms_dur ms_flags ms_cto].
  assert (N : 0 <= fold_right (fun e a => entry_size d h e + a) 0 l).
  { match goal with K : Forall _ l |- _ => revert K end. clear. induction l as [|x l IH]; intros K; [cbn; lia|]. inversion K; subst. cbn [fold_right]. assert (X := IH H2). lia. }
  assert (LP := blen_nonneg P). assert (LP' := blen_nonneg P').
  f_equal.
  - assert (AT : forall A Z : bytes, bslice (blen A + o) (blen A + o + entry_size d h e) (A ++ M ++ Z) = bslice o (o + entry_size d h e) M).
    { intros A Z. assert (LA := blen_nonneg A). rewrite bslice_app_r by lia. rewrite bslice_app_l by lia. f_equal; lia. }
    rewrite !AT. reflexivity.
  - replace (time + s + entry_dur d h e) with (time + entry_dur d h e + s) by lia.
    replace (blen P + o + entry_size d h e) with (blen P + (o + entry_size d h e)) by lia.
    replace (blen P' + o + entry_size d h e) with (blen P' + (o + entry_size d h e)) by lia. apply (IH None (time + entry_dur d h e) (o + entry_size d h e)); auto; lia.
Qed.

(** ** The fragment *)
Lemma head_change : forall r d p bs d', rq_ttml r = None -> doc_change r d (Leaf (bstr "tfhd") p) bs d' -> bs = [Leaf (bstr "tfhd") p] /\ d' = d.
Proof.
  intros r d p bs d' T H. inversion H; subst; auto; try discriminate. congruence.
Qed.
Lemma mfhd_change : forall r d vf nr n bs d', rq_number r = Some n -> blen vf = 4 -> doc_change r d (Leaf (bstr "mfhd") (vf ++ be32 nr)) bs d' ->
  bs = [Leaf (bstr "mfhd") (vf ++ be32 n)] /\ d' = d /\ 0 <= n < 4294967296.
Proof.
  intros r d vf nr n bs d' N L H. inversion H as [| | |? vf' nr' n' Q1 Q2 Q3 Q4 Q5 Q6 Q7| | | | | | | | | | |]; subst; try discriminate.
  - exfalso. match goal with N : ~ In _ special |- _ => apply N; simpl; auto 10 end.
  - match goal with K : vf' ++ _ = _ |- _ => apply app_inj_len in K; [|lia]; destruct K as (-> & _) end. replace n' with n by congruence.
    split; [reflexivity|]. split; [reflexivity|]. assert (n' = n) by congruence. lia.
  - congruence.
Qed.
Lemma leaf_len : forall t p, blen (enc (Leaf t p)) = 4 + blen t + blen p.
Proof. intros. rewrite enc_leaf, !blen_app, blen_be32. lia. Qed.

Lemma fragment_sent : forall f d file nr track samples r n l1 g x out,
  fragment_is f d file nr track samples -> media_follows d f -> 0 <= td_size d ->
  rq_number r = Some n -> rq_ttml r = None -> Forall other (rq_events r) -> Forall other x ->
  top_changes r 0 (f_boxes f) l1 g -> inserted x l1 out -> wf_boxes out ->
  exists f', out = f_boxes f' /\ fragment_is f' d (encs out) n track (map (later (rq_shift r)) samples).
Proof.
  intros f d file nr track samples r n l1 g x out (time & EF & OK & NR & TR & DT & A0 & L0 & LE & ES) [PL BASE (m & rest & o & PO & OF & O1 & O2)] TS RN RT EV OX TC INS WF.
  destruct OK as (BO & IN & LV & NB & HO & RO).
  unfold f_boxes in BO, TC. apply boxes_ok_app in BO. destruct BO as (BPRE & BM & BPOST).
  unfold f_moof in BM. apply box_ok_node in BM. destruct BM as (_ & _ & _ & BM).
  apply boxes_ok_app in BM. destruct BM as (BA1 & _ & BM). apply boxes_ok_app in BM. destruct BM as (BA2 & BT & BA3).
  unfold f_traf in BT. apply box_ok_node in BT. destruct BT as (_ & _ & _ & BT).
  apply boxes_ok_app in BT. destruct BT as (BK1 & _ & BT). apply boxes_ok_app in BT. destruct BT as (BK2 & _ & BT).
  apply boxes_ok_app in BT. destruct BT as (BK3 & _ & BK4).
  repeat (apply Forall_app in IN; destruct IN as (?IN & IN)).
  repeat (apply Forall_app in PL; destruct PL as (?PL & PL)).
  assert (OPRE := inert_others _ IN0 BPRE). assert (OA1 := inert_others _ IN1 BA1). assert (OA2 := inert_others _ IN2 BA2).
  assert (OK1 := inert_others _ IN3 BK1). assert (OK2 := inert_others _ IN4 BK2). assert (OK3 := inert_others _ IN5 BK3).
  assert (OK4 := inert_others _ IN6 BK4). assert (OA3 := inert_others _ IN7 BA3). assert (OPOST := inert_others _ IN BPOST).
  clear BPRE BA1 BA2 BK1 BK2 BK3 BK4 BA3 BPOST.
  (* top level *)
  apply top_changes_app in TC. destruct TC as (d0 & pre' & y & -> & TP & TC).
  destruct (other_tops _ _ _ _ _ EV OPRE TP) as (-> & OPRE'). clear TP.
  apply top_changes_cons in TC. destruct TC as (d1 & mo & post' & -> & TQ & TM).
  destruct TM as [(_ & TM)|(NT & _)]; [|exfalso; apply NT; cbn; auto].
  rewrite PO in TQ. apply top_changes_cons in TQ. destruct TQ as (d2 & md & rest' & -> & TQ & TD).
  assert (MD : md = [Leaf (bstr "mdat") m] /\ d2 = d1).
  { destruct TD as [(_ & TD)|(_ & -> & ->)]; [apply mdat_change in TD; exact TD|auto]. }
  destruct MD as (-> & ->). rewrite PO in OPOST. inversion OPOST as [|? ? OMD OREST]; subst.
  destruct (other_tops _ _ _ _ _ EV OREST TQ) as (-> & OREST'). clear TQ TD.
  (* moof *)
  unfold f_moof in TM. inversion TM as [| | | | | | | | | | | | | |? ? ? ks' ? HK SZ]; subst. clear TM.
  apply doc_changes_app in HK. destruct HK as (e1 & a1' & y & -> & C1 & HK).
  apply plain_kids in C1; auto. destruct C1 as (-> & C1).
  apply doc_changes_cons in HK. destruct HK as (e2 & mf & y2 & -> & CM & HK).
  destruct (mfhd_change _ _ _ _ _ _ _ RN LV CM) as (-> & -> & NN). clear CM.
  apply doc_changes_app in HK. destruct HK as (e3 & a2' & y & -> & C2 & HK).
  apply plain_kids in C2; auto. destruct C2 as (-> & C2).
  apply doc_changes_cons in HK. destruct HK as (e4 & tr & a3' & -> & CT & C3).
  apply plain_kids in C3; auto. destruct C3 as (-> & C3).
  unfold f_traf in CT. inversion CT as [| | | | | | | | | | | | | |? ? ? ts' ? HT SZT]; subst. clear CT.
  apply doc_changes_app in HT. destruct HT as (e1 & k1' & y & -> & D1 & HT).
  apply plain_kids in D1; auto. destruct D1 as (-> & D1).
  apply doc_changes_cons in HT. destruct HT as (e2 & hd & y2 & -> & CH & HT).
  destruct (head_change _ _ _ _ _ RT CH) as (-> & ->). clear CH.
  apply doc_changes_app in HT. destruct HT as (e3 & k2' & y & -> & D2 & HT).
  apply plain_kids in D2; auto. destruct D2 as (-> & D2).
  apply doc_changes_cons in HT. destruct HT as (e5 & tf & y2 & -> & CF & HT).
  destruct (tfdt_change _ _ _ _ _ CF) as (pl' & t & -> & DT1 & DT2 & GR). clear CF.
  assert (t = time). { eapply MediaProofs5.decode_time_fun; eauto. } subst t.
  apply doc_changes_app in HT. destruct HT as (e3 & k3' & y & -> & D3 & HT).
  apply plain_kids in D3; auto. destruct D3 as (-> & D3).
  apply doc_changes_cons in HT. destruct HT as (e6 & ru & k4' & -> & CR & D4).
  assert (G : 0 <= e5 /\ blen pl' = blen (f_tfdt f) + e5) by lia. destruct G as (G0 & GL).
  destruct (run_change _ _ _ _ _ _ RO OF G0 CR) as (-> & -> & RO'). clear CR.
  apply plain_kids in D4; auto. destruct D4 as (-> & D4).
  cbn [app] in *.
  (* the new fragment *)
  set (f' := mk_frag (pre' ++ x) a1' (f_vf f) n a2' k1' (f_head f) k2' pl' k3' (moved (f_run f) e5) k4' a3' (Leaf (bstr "mdat") m :: rest')).
  assert (EO : out = f_boxes f').
  { assert (NM : Forall (fun k => ~ moof k) (Leaf (bstr "mdat") m :: rest')).
    { constructor; [apply other_not_moof; exact OMD|]. eapply Forall_impl; [|exact OREST']. intros; apply other_not_moof; assumption. }
    match type of INS with inserted _ (_ ++ ?M :: _) _ => set (mo := M) in * end.
    change (f_boxes f') with ((pre' ++ x) ++ mo :: Leaf (bstr "mdat") m :: rest'). rewrite <- app_assoc.
    destruct INS as [(a & k & b & E & MK & NB' & ->)|(NB' & _)].
    - assert (UQ : forall A a b (P : A -> Prop) k c d' k', a ++ k :: b = c ++ k' :: d' -> P k -> P k' -> Forall (fun z => ~ P z) b -> Forall (fun z => ~ P z) d' -> a = c /\ k = k' /\ b = d').
      { clear. induction a as [|z a IH]; intros b P k c d' k' E K K' FB FD; destruct c as [|w c]; cbn [app] in E.
        - injection E as -> ->. auto.
        - injection E as -> ->. exfalso. rewrite Forall_forall in FB. apply (FB k'); [apply in_or_app; right; left; reflexivity|exact K'].
        - injection E as -> E. exfalso. rewrite Forall_forall in FD. rewrite <- E in FD. apply (FD k); [apply in_or_app; right; left; reflexivity|exact K].
        - injection E as -> E. destruct (IH _ _ _ _ _ _ E K K' FB FD) as (-> & -> & ->). auto. }
      destruct (UQ _ _ _ moof _ _ _ _ E eq_refl MK NM NB') as (<- & <- & <-). reflexivity.
    - exfalso. rewrite Forall_forall in NB'. apply (NB' mo); [apply in_or_app; right; left; reflexivity|reflexivity]. }
  exists f'. split; [exact EO|].
  assert (OX' : Forall other (pre' ++ x)) by (apply Forall_app; auto).
  assert (X1 := other_kids _ _ _ _ C1 OA1). assert (X2 := other_kids _ _ _ _ C2 OA2). assert (X3 := other_kids _ _ _ _ C3 OA3).
  assert (Y1 := other_kids _ _ _ _ D1 OK1). assert (Y2 := other_kids _ _ _ _ D2 OK2). assert (Y3 := other_kids _ _ _ _ D3 OK3). assert (Y4 := other_kids _ _ _ _ D4 OK4).
  assert (OP' : Forall other (Leaf (bstr "mdat") m :: rest')) by (constructor; auto).
  assert (ML : blen (enc (f_moof f')) = blen (enc (f_moof f)) + e5).
  { unfold f_moof, f_traf. cbn [f' f_pre f_a1 f_vf f_nr f_a2 f_k1 f_head f_k2 f_tfdt f_k3 f_run f_k4 f_a3].
    rewrite !enc_node. rewrite !blen_app, !blen_be32. rewrite !encs_app. cbn [encs]. rewrite !blen_app. rewrite !encs_app. cbn [encs]. rewrite !blen_app.
    rewrite !enc_node. rewrite !blen_app, !blen_be32. rewrite !encs_app. cbn [encs]. rewrite !blen_app. rewrite !encs_app. cbn [encs]. rewrite !blen_app. rewrite !encs_app. cbn [encs]. rewrite !blen_app.
    rewrite !leaf_len, !blen_app, !blen_be32.
    rewrite (kids_len _ _ _ _ C1), (kids_len _ _ _ _ C2), (kids_len _ _ _ _ C3), (kids_len _ _ _ _ D1), (kids_len _ _ _ _ D2), (kids_len _ _ _ _ D3), (kids_len _ _ _ _ D4), GL.
    replace (blen (run_payload (moved (f_run f) e5))) with (blen (run_payload (f_run f))); [lia|].
    unfold run_payload, moved. rewrite OF. cbn [rn_version rn_flags rn_offset rn_first rn_entries opt_s32]. rewrite !blen_app, !blen_be32. reflexivity. }
  assert (FOK : frag_ok f').
  { split; [|split; [|split; [exact LV|split; [exact NN|split; [exact HO|exact RO']]]]].
    - rewrite EO in WF. unfold f_boxes in WF |- *. apply boxes_ok_app in WF. destruct WF as (W1 & W2 & W3).
      apply boxes_ok_app. split; [apply others_ok; auto|]. split; [|apply others_ok; auto].
      unfold f_moof in W2 |- *. apply box_ok_node in W2. destruct W2 as (_ & _ & S2 & W2).
      apply box_ok_node. split; [reflexivity|]. split; [cbn; auto|]. split; [exact S2|].
      apply boxes_ok_app in W2. destruct W2 as (W2 & W4 & W5). apply boxes_ok_app in W5. destruct W5 as (W5 & W6 & W7).
      apply boxes_ok_app. split; [apply others_ok; auto|]. split.
      { destruct W4 as (w1 & _ & w3 & w4). split; [exact w1|]. split; [cbn; intuition discriminate|]. auto. }
      apply boxes_ok_app. split; [apply others_ok; auto|]. split; [|apply others_ok; auto].
      unfold f_traf in W6 |- *. apply box_ok_node in W6. destruct W6 as (_ & _ & S6 & W6).
      apply box_ok_node. split; [reflexivity|]. split; [cbn; auto 10|]. split; [exact S6|].
      apply boxes_ok_app in W6. destruct W6 as (W6 & V1 & V2). apply boxes_ok_app in V2. destruct V2 as (V2 & V3 & V4).
      apply boxes_ok_app in V4. destruct V4 as (V4 & V5 & V6).
      apply boxes_ok_app. split; [apply others_ok; auto|]. split.
      { destruct V1 as (w1 & _ & w3 & w4). split; [exact w1|]. split; [cbn; intuition discriminate|]. auto. }
      apply boxes_ok_app. split; [apply others_ok; auto|]. split.
      { destruct V3 as (w1 & _ & w3 & w4). split; [exact w1|]. split; [cbn; intuition discriminate|]. auto. }
      apply boxes_ok_app. split; [apply others_ok; auto|]. split; [|apply others_ok; auto].
      destruct V5 as (w1 & _ & w3 & w4). split; [exact w1|]. split; [cbn; intuition discriminate|]. auto.
    - repeat (apply Forall_app; split); apply others_inert; auto; (apply Forall_app in OX'; destruct OX' as (Z1 & Z2)); assumption. }
  assert (LX := blen_nonneg (encs (pre' ++ x))).
  assert (LM := blen_nonneg (enc (f_moof f))).
  assert (MA : media_at f' = blen (encs (pre' ++ x)) + (o + e5)).
  { unfold media_at. cbn [f' f_head f_pre f_run moved rn_offset]. rewrite BASE, OF. reflexivity. }
  assert (MLEN : media_len d f' = media_len d f) by reflexivity.
  assert (FILE : encs (f_boxes f') = (encs (pre' ++ x) ++ enc (f_moof f') ++ be32 (8 + blen m) ++ bstr "mdat") ++ m ++ encs rest').
  { unfold f_boxes. cbn [f' f_pre f_post]. rewrite encs_app. cbn [encs]. rewrite enc_leaf. rewrite <- !app_assoc. reflexivity. }
  assert (FILE0 : encs (f_boxes f) = (encs (f_pre f) ++ enc (f_moof f) ++ be32 (8 + blen m) ++ bstr "mdat") ++ m ++ encs rest).
  { unfold f_boxes. rewrite PO. rewrite encs_app. cbn [encs]. rewrite enc_leaf. rewrite <- !app_assoc. reflexivity. }
  exists (time + rq_shift r). rewrite EO. split; [reflexivity|]. split; [exact FOK|]. split; [reflexivity|]. split; [reflexivity|].
  split; [exact DT2|]. rewrite MA, MLEN. split; [lia|]. split; [exact L0|]. split.
  { rewrite FILE, !blen_app, blen_be32, ML. change (blen (bstr "mdat")) with 4. assert (Z := blen_nonneg (encs rest')). lia. }
  unfold frag_samples. rewrite MA.
  set (q := o - blen (enc (f_moof f)) - 8).
  assert (E1 : blen (encs (pre' ++ x)) + (o + e5) = blen (encs (pre' ++ x) ++ enc (f_moof f') ++ be32 (8 + blen m) ++ bstr "mdat") + q).
  { rewrite !blen_app, blen_be32, ML. change (blen (bstr "mdat")) with 4. lia. }
  assert (E2 : media_at f = blen (encs (f_pre f) ++ enc (f_moof f) ++ be32 (8 + blen m) ++ bstr "mdat") + q).
  { unfold media_at. rewrite BASE, OF. cbn [either]. rewrite !blen_app, blen_be32. change (blen (bstr "mdat")) with 4. lia. }
  rewrite E1, E2. cbn [f' f_head f_run moved rn_first rn_entries].
  symmetry. eapply samples_at; [exact FILE0|exact FILE| |lia|].
  - destruct RO as (_ & _ & _ & _ & _ & _ & _ & RE). eapply Forall_impl; [|exact RE]. intros e (_ & U & _).
    destruct HO as (_ & _ & _ & _ & _ & _ & HU & _). unfold entry_size.
    destruct (en_size e) as [z|]; cbn [either] in *; [cbn in U; lia|]. destruct (th_size (f_head f)) as [z|]; cbn [either] in *; [cbn in HU; lia|exact TS].
  - unfold media_len in O2. lia.
Qed.
