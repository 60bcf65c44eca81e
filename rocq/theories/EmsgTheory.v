(** Splice announcements and event message boxes (C34, C35). *)
From Coq Require Import ZifyBool ZifyNat.
From Verif Require Import Base BaseProofs BytesModel BytesProofs BoxSpec Mp4Model Mp4Proofs EmsgModel EmsgSpec EmsgReadModel
  MediaProofs MediaProofs2 MediaProofs3.
Open Scope Z_scope.

Lemma message_eq : forall id pts dur, dur <> 0 -> scte35_message id pts dur = splice_xml id pts dur.
Proof.
  intros id pts dur H. unfold scte35_message, splice_xml.
  destruct (Z.eqb_spec dur 0) as [E|_]; [contradiction|].
  cbn [app join]. unfold attr, make_xml_bool, quote, newline, dq, nl.
  rewrite !string_app_assoc. reflexivity.
Qed.

Lemma print_len : forall f n acc, (String.length (print_pos_fuel f n acc) <= f + String.length acc)%nat.
Proof.
  induction f; intros n acc; cbn [print_pos_fuel]; [lia|].
  destruct (n / 10 =? 0).
  - cbn [String.length]. lia.
  - specialize (IHf (n / 10) (String (digit_char (n mod 10)) acc)). cbn [String.length] in IHf. lia.
Qed.
Lemma print_Z_len : forall n, 0 <= n < 8589934592 -> (String.length (print_Z n) <= 33)%nat.
Proof.
  intros n H. unfold print_Z. destruct (Z.ltb_spec n 0); [lia|]. unfold print_nat.
  assert (L := print_len (S (Z.to_nat (Z.log2 n))) n EmptyString). cbn [String.length] in L.
  assert (Z.log2 n < 33); [|lia]. destruct (Z.eq_dec n 0) as [->|N]; [reflexivity|].
  apply Z.log2_lt_pow2; [lia|]. exact (proj2 H).
Qed.
Lemma string_app_len : forall a b, String.length (a ++ b) = (String.length a + String.length b)%nat.
Proof. induction a; intros; simpl; auto. Qed.
Lemma xml_len : forall id pts dur, 0 <= id < 8589934592 -> 0 <= pts < 8589934592 -> 0 <= dur < 8589934592 ->
  (String.length (splice_xml id pts dur) < 600)%nat.
Proof.
  intros id pts dur A B C. assert (L1 := print_Z_len _ A). assert (L2 := print_Z_len _ B). assert (L3 := print_Z_len _ C).
  revert L1 L2 L3. unfold splice_xml. rewrite !string_app_len. generalize (print_Z id) (print_Z pts) (print_Z dur).
  intros x y z L1 L2 L3. cbn [String.length dq nl]. lia.
Qed.

(** The box that is written. *)
Lemma scte35_as_emsg : forall pto pt d mid sid, create_scte35_emsg 90000 pto pt d mid sid =
  emsg_box (mk_emsg "urn:scte:scte35:2013:xml" "999" 90000 (pt - pto) d mid
    (scte35_message sid (pt mod 8589934592) d)).
Proof. reflexivity. Qed.
Lemma emsg_enc : forall scheme value ts delta d mid data b,
  ascii_text scheme = true -> ascii_text value = true -> ascii_text data = true ->
  emsg_box (mk_emsg scheme value ts delta d mid data) = Ok b ->
  b = enc (Leaf (bstr "emsg") (event_payload (bstr scheme) (bstr value) ts delta d mid (bstr data))).
Proof.
  intros scheme value ts delta d mid data b A1 A2 A3 H. apply emsg_box_enc in H; auto. rewrite H. f_equal.
  unfold event_payload, emsg_payload. cbn [em_scheme em_value em_timescale em_delta em_duration em_id em_data].
  rewrite <- !app_assoc. reflexivity.
Qed.
Lemma emsg_total : forall scheme value ts delta d mid data,
  0 <= ts < 4294967296 -> 0 <= delta < 4294967296 -> 0 <= d < 4294967296 -> 0 <= mid < 4294967296 ->
  30 + Z.of_nat (String.length scheme) + Z.of_nat (String.length value) + Z.of_nat (String.length data) < 4294967296 ->
  exists b, emsg_box (mk_emsg scheme value ts delta d mid data) = Ok b.
Proof.
  intros scheme value ts delta d mid data A B C D S. unfold emsg_box.
  cbn [em_scheme em_value em_timescale em_delta em_duration em_id em_data].
  rewrite p32_ok by lia. cbn [bind]. rewrite p32_ok by lia. cbn [bind]. rewrite p32_ok by lia. cbn [bind].
  rewrite p32_ok by lia. cbn [bind]. rewrite p32_ok by lia. cbn [bind]. eexists. reflexivity.
Qed.
Lemma splice_box_eq : forall n s t sch val msg, sch = "urn:scte:scte35:2013:xml"%string -> val = "999"%string ->
  msg = splice_xml (t / 10) (t * 90000 mod 8589934592) (ad_seconds n * 90000) ->
  splice_box n s t = Leaf (bstr "emsg") (event_payload (bstr sch) (bstr val) 90000 ((t - s) * 90000) (ad_seconds n * 90000) (t / 10) (bstr msg)).
Proof. intros n s t sch val msg -> -> ->. reflexivity. Qed.
Lemma ad_bounds : forall n, 0 < ad_seconds n * 90000 < 4294967296.
Proof. intros. unfold ad_seconds. destruct (n =? 8); lia. Qed.

Lemma scte35_box : forall n s t b, create_scte35_emsg 90000 (s * 90000) (t * 90000) (ad_seconds n * 90000) (t / 10) (t / 10) = Ok b ->
  b = enc (splice_box n s t).
Proof.
  intros n s t b H. rewrite scte35_as_emsg in H. assert (AD := ad_bounds n).
  assert (K := scte35_message_ascii (t / 10) (t * 90000 mod 8589934592) (ad_seconds n * 90000)).
  assert (ME := message_eq (t / 10) (t * 90000 mod 8589934592) (ad_seconds n * 90000) ltac:(lia)).
  remember (scte35_message (t / 10) (t * 90000 mod 8589934592) (ad_seconds n * 90000)) as msg eqn:Em. clear Em.
  remember "urn:scte:scte35:2013:xml"%string as sch eqn:Es. remember "999"%string as val eqn:Ev.
  rewrite (splice_box_eq n s t sch val msg Es Ev ME). rewrite Z.mul_sub_distr_r.
  apply emsg_enc in H; auto; [rewrite Es|rewrite Ev]; reflexivity.
Qed.
Lemma scte35_box_ok : forall n s t, 0 <= t / 10 < 4294967296 -> 0 <= t - s <= 40000 ->
  create_scte35_emsg 90000 (s * 90000) (t * 90000) (ad_seconds n * 90000) (t / 10) (t / 10) = Ok (enc (splice_box n s t)).
Proof.
  intros n s t A B.
  assert (X : exists b, create_scte35_emsg 90000 (s * 90000) (t * 90000) (ad_seconds n * 90000) (t / 10) (t / 10) = Ok b).
  { rewrite scte35_as_emsg. assert (AD := ad_bounds n). rewrite message_eq by lia.
    assert (L := xml_len (t / 10) (t * 90000 mod 8589934592) (ad_seconds n * 90000) ltac:(lia)
                   (Z.mod_pos_bound (t * 90000) 8589934592 eq_refl) ltac:(lia)).
    revert L. generalize (splice_xml (t / 10) (t * 90000 mod 8589934592) (ad_seconds n * 90000)). intros msg L.
    apply emsg_total; try lia. cbn [String.length]. lia. }
  destruct X as [b X]. rewrite X. f_equal. eapply scte35_box; eauto.
Qed.

Lemma find_splice_some : forall l s e t, find_splice l s e = Some t ->
  In t l /\ 0 <= t /\ ((s <= t - 6 <= e) \/ (s <= t - 8 <= e)).
Proof.
  induction l as [|x l IH]; intros s e t H; [discriminate|]. cbn [find_splice] in H.
  destruct (((s <=? x - 6) && (x - 6 <=? e)) || ((s <=? x - 8) && (x - 8 <=? e))) eqn:E.
  - destruct (Z.leb_spec 0 x).
    + injection H as <-. split; [left; auto|]. split; [auto|]. lia.
    + apply IH in H. destruct H as (A & B). split; [right; auto|auto].
  - apply IH in H. destruct H as (A & B). split; [right; auto|auto].
Qed.
Lemma find_splice_none : forall l s e, find_splice l s e = None ->
  forall t, In t l -> 0 <= t -> ~ ((s <= t - 6 <= e) \/ (s <= t - 8 <= e)).
Proof.
  induction l as [|x l IH]; intros s e H t I P; [contradiction|]. cbn [find_splice] in H.
  destruct (((s <=? x - 6) && (x - 6 <=? e)) || ((s <=? x - 8) && (x - 8 <=? e))) eqn:E.
  - destruct (Z.leb_spec 0 x); [discriminate|]. destruct I as [<-|I]; [lia|]. eapply IH; eauto.
  - destruct I as [<-|I]; [lia|]. eapply IH; eauto.
Qed.

Lemma minute_of : forall m t o, m mod 60 = 0 -> 0 <= o < 60 -> (t mod 60 = o /\ t - t mod 60 = m <-> m + o = t).
Proof.
  intros m t o M O. split; [intros [A B]; lia|]. intros <-.
  assert (E : (m + o) mod 60 = o) by (rewrite Z.add_mod, M, Z.add_0_l, Z.mod_mod, Z.mod_small by lia; reflexivity).
  lia.
Qed.
Lemma splice_list : forall n m t, m mod 60 = 0 ->
  (In t (fst (splice_times n m)) <-> splice n t /\ t - t mod 60 = m).
Proof.
  intros n m t M. unfold splice_times, splice, splice_second.
  assert (N1 : n = 2 -> n <> 3 /\ n <> 8) by lia. assert (N2 : n = 3 -> n <> 8) by lia.
  assert (D : forall o, 0 <= o < 60 -> (t mod 60 = o /\ t - t mod 60 = m <-> m + o = t)).
  { intros o O. exact (minute_of m t o M O). }
  assert (D1 := D 10 ltac:(lia)). assert (D2 := D 40 ltac:(lia)). assert (D3 := D 36 ltac:(lia)).
  assert (D4 := D 46 ltac:(lia)). assert (D5 := D 30 ltac:(lia)). clear D M.
  destruct (Z.eqb_spec n 2); [|destruct (Z.eqb_spec n 3); [|destruct (Z.eqb_spec n 8)]]; cbn [fst In]; tauto.
Qed.
Lemma splice_ad : forall n m, snd (splice_times n m) = ad_seconds n.
Proof.
  intros. unfold splice_times, ad_seconds.
  destruct (Z.eqb_spec n 2); [subst; reflexivity|]. destruct (Z.eqb_spec n 3); [subst; reflexivity|].
  destruct (n =? 8); reflexivity.
Qed.

Fixpoint ascending (l : list Z) : Prop :=
  match l with [] => True | x :: r => Forall (Z.lt x) r /\ ascending r end.
Lemma find_splice_first : forall l s e t, ascending l -> find_splice l s e = Some t ->
  forall u, In u l -> 0 <= u -> (s <= u - 6 <= e) \/ (s <= u - 8 <= e) -> t <= u.
Proof.
  induction l as [|x l IH]; intros s e t A H u I P T; [contradiction|]. cbn [find_splice] in H.
  destruct A as [A1 A2]. rewrite Forall_forall in A1.
  destruct (((s <=? x - 6) && (x - 6 <=? e)) || ((s <=? x - 8) && (x - 8 <=? e))) eqn:E.
  - destruct (Z.leb_spec 0 x).
    + injection H as <-. destruct I as [<-|I]; [lia|]. apply A1 in I. lia.
    + destruct I as [<-|I]; [lia|]. eapply IH; eauto.
  - destruct I as [<-|I]; [lia|]. eapply IH; eauto.
Qed.
Lemma splice_ascending : forall n m, ascending (fst (splice_times n m)).
Proof.
  intros. unfold splice_times.
  destruct (n =? 2); [|destruct (n =? 3); [|destruct (n =? 8)]]; cbn [fst ascending]; repeat constructor; lia.
Qed.
Lemma start_minute : forall x, (x - x mod 60) mod 60 = 0.
Proof. intros. Z.to_euclidean_division_equations. lia. Qed.

Definition in_minute (d k t : Z) : Prop := t - t mod 60 = k * d - (k * d) mod 60.
Lemma event_spec : forall n k d, 1 <= n <= 8 ->
  (exists t, scte35_event n k d = Some (k * d, t, ad_seconds n) /\ splice n t /\ 0 <= t /\
     in_minute d k t /\ (touches d k (t - 6) \/ touches d k (t - 8)) /\
     forall u, splice n u -> 0 <= u -> in_minute d k u -> touches d k (u - 6) \/ touches d k (u - 8) -> t <= u) \/
  (scte35_event n k d = None /\ forall t, splice n t -> 0 <= t -> in_minute d k t ->
     ~ (touches d k (t - 6) \/ touches d k (t - 8))).
Proof.
  intros n k d N. unfold scte35_event, in_minute. destruct ((n <? 1) || (8 <? n)) eqn:E; [lia|].
  assert (SL := fun t => splice_list n (k * d - (k * d) mod 60) t (start_minute (k * d))).
  assert (SA := splice_ad n (k * d - (k * d) mod 60)). assert (AS := splice_ascending n (k * d - (k * d) mod 60)).
  destruct (splice_times n (k * d - (k * d) mod 60)) as [l ad]. cbn [fst snd] in *. subst ad.
  assert (TT : forall w, touches d k w <-> k * d <= w <= k * d + d) by (intros; unfold touches; lia).
  destruct (find_splice l (k * d) (k * d + d)) as [t|] eqn:F.
  - left. exists t. assert (FF := find_splice_first _ _ _ _ AS F). apply find_splice_some in F. destruct F as (I & P & T). apply SL in I. destruct I as [I1 I2].
    split; [reflexivity|]. split; [auto|]. split; [auto|]. split; [auto|]. split; [rewrite !TT; auto|].
    intros u U1 U2 U3 U4. rewrite !TT in U4. apply FF; auto. apply SL; auto.
  - right. split; [reflexivity|]. intros t S P Q. assert (I : In t l) by (apply SL; auto).
    assert (X := find_splice_none _ _ _ F t I P). rewrite !TT. auto.
Qed.

(** ** C34 *)
(** What a message is: it announces a splice of the schedule, the segment touches
    an instant 6 s or 8 s before it, begins between 6 s and its duration plus
    8 s ahead, and the box has the stated content. *)
Lemma C34_message_pf : forall n k d b, create_scte35box n (Some k) d = Ok b -> b <> [] ->
  exists t, splice n t /\ 0 <= t /\ (touches d k (t - 6) \/ touches d k (t - 8)) /\
    6 <= t - k * d <= d + 8 /\ b = enc (splice_box n (k * d) t).
Proof.
  intros n k d b H NE. unfold create_scte35box in H.
  destruct ((n <? 1) || (8 <? n)) eqn:E; [congruence|]. assert (N : 1 <= n <= 8) by lia.
  destruct (event_spec n k d N) as [(t & EV & S & P & M & T & _)|(EV & _)]; rewrite EV in H; [|congruence].
  exists t. split; [auto|]. split; [auto|]. split; [auto|]. split; [unfold touches in T; lia|].
  apply scte35_box; auto.
Qed.
Example C34_message_case : create_scte35box 2 (Some 65) 6 = Ok (enc (splice_box 2 390 400)) /\
  enc (splice_box 2 390 400) <> [] /\ splice 2 400 /\ touches 6 65 394.
Proof.
  split; [vm_compute; reflexivity|]. split; [discriminate|].
  split; [unfold splice, splice_second; right; left; split; reflexivity|unfold touches; lia].
Qed.

(** A segment touching no warning instant carries no message, and neither does
    any segment when the option is out of range. *)
Lemma C34_silent_pf : forall n k d, (forall t, splice n t -> 0 <= t -> ~ touches d k (t - 6) /\ ~ touches d k (t - 8)) ->
  create_scte35box n (Some k) d = Ok [].
Proof.
  intros n k d H. unfold create_scte35box. destruct ((n <? 1) || (8 <? n)) eqn:E; [reflexivity|].
  assert (N : 1 <= n <= 8) by lia.
  destruct (event_spec n k d N) as [(t & EV & S & P & M & T & _)|(EV & _)]; rewrite EV; [|reflexivity].
  destruct (H t S P). tauto.
Qed.
Example C34_silent_case : forall t, splice 1 t -> 0 <= t -> ~ touches 6 3 (t - 6) /\ ~ touches 6 3 (t - 8).
Proof.
  intros t S P. unfold splice, splice_second in S. assert (M : t mod 60 = 10) by lia. unfold touches.
  Z.to_euclidean_division_equations. lia.
Qed.
Lemma C34_off_pf : forall n k d, n < 1 \/ 8 < n -> create_scte35box n k d = Ok [].
Proof.
  intros n k d H. unfold create_scte35box. destruct ((n <? 1) || (8 <? n)) eqn:E; [reflexivity|lia].
Qed.
Example C34_off_case : 8 < 9 /\ create_scte35box 9 (Some 65) 6 = Ok [].
Proof. split; [lia|reflexivity]. Qed.

Lemma announce : forall n d k t, 1 <= n <= 8 -> 0 <= t -> t / 10 < 4294967296 -> splice n t -> d <= 100 ->
  in_minute d k t -> touches d k (t - 6) \/ touches d k (t - 8) ->
  (forall u, splice n u -> in_minute d k u -> u < t -> ~ touches d k (u - 6) /\ ~ touches d k (u - 8)) ->
  create_scte35box n (Some k) d = Ok (enc (splice_box n (k * d) t)).
Proof.
  intros n d k t N P L S D M T U. unfold create_scte35box. destruct ((n <? 1) || (8 <? n)) eqn:E; [lia|].
  destruct (event_spec n k d N) as [(t' & EV & S' & P' & M' & T' & F)|(_ & F)].
  - rewrite EV. clear EV. assert (t' = t).
    { specialize (F t S P M T). destruct (Z.eq_dec t' t) as [|NE]; [auto|]. destruct (U t' S' M' ltac:(lia)). tauto. }
    subst t'. apply scte35_box_ok.
    + split; [apply Z.div_pos; lia|auto].
    + unfold touches in T. lia.
  - destruct (F t S P M T).
Qed.

(** Every splice is announced, 6 s or more ahead, for the listed segment durations. *)
Lemma C34_announced_partial_pf : forall n d t, 1 <= n <= 8 -> In d [1; 2; 3; 4; 5; 6; 8; 10; 12] ->
  splice n t -> 0 <= t -> t / 10 < 4294967296 ->
  exists k, 0 <= k /\ t - 8 - d <= k * d <= t - 6 /\
    create_scte35box n (Some k) d = Ok (enc (splice_box n (k * d) t)).
Proof.
  intros n d t N D S P L. assert (DP : 0 < d <= 12) by (cbn [In] in D; lia).
  assert (Q1 := Z.div_mod (t - 6) d ltac:(lia)). assert (Q2 := Z.mod_pos_bound (t - 6) d ltac:(lia)).
  exists ((t - 6) / d). set (k := (t - 6) / d) in *. clearbody k. set (r := (t - 6) mod d) in *. clearbody r.
  assert (T1 := Z.div_mod t 60 ltac:(lia)).
  assert (O : 10 <= t mod 60 <= 46) by (unfold splice, splice_second in S; lia).
  assert (MM : in_minute d k t).
  { unfold in_minute. assert (X : (k * d) / 60 = t / 60).
    { symmetry. apply Z.div_unique with (k * d - 60 * (t / 60)); [|lia]. left.
      unfold splice, splice_second in S.
      cbn [In] in D. decompose [or] D; try contradiction; subst d; lia. }
    assert (Y := Z.div_mod (k * d) 60 ltac:(lia)). lia. }
  split. { assert (0 <= t / 60) by (apply Z.div_pos; lia). nia. }
  split; [lia|]. apply announce; auto.
  - lia.
  - left. unfold touches. lia.
  - intros u SU MU LU. unfold touches. unfold in_minute in *. assert (UM : u - u mod 60 = t - t mod 60) by lia. clear MM MU.
    unfold splice, splice_second in *.
    assert (X : forall P : Prop, (k * d <= u - 6 -> P) -> (k * d > u - 6 -> P) -> P) by (intros ? A B; destruct (Z_le_gt_dec (k * d) (u - 6)); auto).
    apply X; clear X; intros X; [exfalso|lia].
    remember (t mod 60) as tm. remember (u mod 60) as um. remember (t / 60) as tq. clear Heqtm Hequm Heqtq L.
    cbn [In] in D. decompose [or] D; try contradiction; subst d; lia.
Qed.
Example C34_announced_case : splice 3 46 /\ In 10 [1; 2; 3; 4; 5; 6; 8; 10; 12] /\
  create_scte35box 3 (Some 4) 10 = Ok (enc (splice_box 3 40 46)).
Proof.
  split; [unfold splice, splice_second; right; right; left; split; [reflexivity|right; reflexivity]|].
  split; [cbn; tauto|vm_compute; reflexivity].
Qed.

(** With one ad per minute every duration dividing the minute works. *)
Lemma C34_announced_single_partial_pf : forall n d t, 1 <= n <= 8 -> n <> 2 -> n <> 3 -> n <> 8 -> 0 < d -> 60 mod d = 0 ->
  splice n t -> 0 <= t -> t / 10 < 4294967296 ->
  exists k, 0 <= k /\ t - 8 - d <= k * d <= t - 6 /\
    create_scte35box n (Some k) d = Ok (enc (splice_box n (k * d) t)).
Proof.
  intros n d t N N2 N3 N8 D DV S P L. assert (S' : t mod 60 = 10) by (unfold splice, splice_second in S; lia).
  assert (D60 : d <= 60). { destruct (Z_le_gt_dec d 60); auto. rewrite Z.mod_small in DV by lia. discriminate. }
  assert (Q1 := Z.div_mod (t - 6) d ltac:(lia)). assert (Q2 := Z.mod_pos_bound (t - 6) d ltac:(lia)).
  assert (T1 := Z.div_mod t 60 ltac:(lia)). assert (Z60 := Z.div_mod 60 d ltac:(lia)).
  exists ((t - 6) / d). set (k := (t - 6) / d) in *. clearbody k.
  assert (T0 : 0 <= t / 60) by (apply Z.div_pos; lia).
  assert (K : k >= (60 / d) * (t / 60)).
  { destruct (Z_ge_lt_dec k ((60 / d) * (t / 60))); auto. exfalso.
    assert (60 * (t / 60) = d * ((60 / d) * (t / 60))) by nia. nia. }
  assert (KD : 60 * (t / 60) <= k * d) by nia.
  assert (MM : in_minute d k t).
  { unfold in_minute. assert (X : (k * d) / 60 = t / 60).
    { symmetry. apply Z.div_unique with (k * d - 60 * (t / 60)); [|lia]. left. lia. }
    assert (Y := Z.div_mod (k * d) 60 ltac:(lia)). lia. }
  split; [nia|]. split; [lia|]. apply announce; auto.
  - lia.
  - left. unfold touches. lia.
  - intros u SU MU LU. unfold in_minute in *. assert (u mod 60 = 10) by (unfold splice, splice_second in SU; lia). lia.
Qed.
Example C34_announced_single_case : 60 mod 15 = 0 /\ splice 1 70 /\
  create_scte35box 1 (Some 4) 15 = Ok (enc (splice_box 1 60 70)).
Proof. split; [reflexivity|]. split; [left; reflexivity|vm_compute; reflexivity]. Qed.

(** The event id written in the message determines the splice. *)
Lemma C34_ids_pf : forall n t u, splice n t -> splice n u -> t / 10 = u / 10 -> t = u.
Proof.
  intros n t u S U E. unfold splice, splice_second in *.
  assert (A := Z.div_mod t 60 ltac:(lia)). assert (B := Z.div_mod u 60 ltac:(lia)).
  assert (C := Z.div_mod t 10 ltac:(lia)). assert (D := Z.div_mod u 10 ltac:(lia)).
  assert (F := Z.mod_pos_bound t 10 ltac:(lia)). assert (G := Z.mod_pos_bound u 10 ltac:(lia)).
  remember (t / 60) as a. remember (u / 60) as b. remember (t mod 60) as tm. remember (u mod 60) as um.
  remember (t / 10) as c. remember (u / 10) as d. remember (t mod 10) as e. remember (u mod 10) as f. clear Heqa Heqb Heqtm Hequm Heqc Heqd Heqe Heqf.
  lia.
Qed.
Example C34_ids_case : splice 3 36 /\ splice 3 46 /\ 36 / 10 <> 46 / 10.
Proof.
  split; [right; right; left; split; [reflexivity|left; reflexivity]|].
  split; [right; right; left; split; [reflexivity|right; reflexivity]|discriminate].
Qed.

(** Segment durations for which a splice is never announced: 7 s (the segment
    with the warning instants starts in the previous minute) and 15 s with
    three ads (the segment announces the earlier ad). *)
Lemma C34_seven_seconds_refuted_pf : exists n d t, 1 <= n <= 8 /\ 0 < d /\ splice n t /\ 0 <= t /\
  forall k, t - 8 - d <= k * d <= t - 6 -> create_scte35box n (Some k) d <> Ok (enc (splice_box n (k * d) t)).
Proof.
  exists 1, 7, 130. split; [lia|]. split; [lia|]. split; [left; reflexivity|]. split; [lia|].
  intros k K. assert (k = 17) by lia. subst k. vm_compute. discriminate.
Qed.
Lemma C34_fifteen_seconds_refuted_pf : exists n d t, 1 <= n <= 8 /\ 0 < d /\ 60 mod d = 0 /\ splice n t /\ 0 <= t /\
  forall k, t - 8 - d <= k * d <= t - 6 -> create_scte35box n (Some k) d <> Ok (enc (splice_box n (k * d) t)).
Proof.
  exists 3, 15, 46. split; [lia|]. split; [lia|]. split; [reflexivity|].
  split; [right; right; left; split; [reflexivity|right; reflexivity]|]. split; [lia|].
  intros k K. assert (k = 2) by lia. subst k. vm_compute. discriminate.
Qed.

Lemma splice_box_inj : forall n s t u, 0 <= (t - s) * 90000 < 4294967296 -> 0 <= (u - s) * 90000 < 4294967296 ->
  enc (splice_box n s t) = enc (splice_box n s u) -> t = u.
Proof.
  intros n s t u A B E. unfold splice_box in E.
  revert E. generalize (bstr (splice_xml (t / 10) (t * 90000 mod 8589934592) (ad_seconds n * 90000))).
  generalize (bstr (splice_xml (u / 10) (u * 90000 mod 8589934592) (ad_seconds n * 90000))). intros x y E.
  rewrite !enc_leaf in E. apply app_inj_len in E; [|rewrite !blen_app, !blen_be32; reflexivity]. destruct E as [_ E].
  unfold event_payload in E. apply app_inv_head in E. apply app_inv_head in E.
  apply (f_equal (@tl Z)) in E. cbn [tl] in E. apply app_inv_head in E. apply (f_equal (@tl Z)) in E. cbn [tl] in E.
  apply app_inv_head in E. apply app_inj_len in E; [|rewrite !blen_be32; reflexivity]. destruct E as [E _].
  apply (f_equal be_val) in E. rewrite !be32_val in E by lia. lia.
Qed.

(** The documentation and the docstring promise ads at 10, 30 and 50 seconds
    for three ads per minute; the ones at 30 and 50 are never announced. *)
Lemma C34_documented_three_refuted_pf : exists t u, documented_splice 3 t /\ documented_splice 3 u /\ t <> u /\ 0 <= t /\ 0 <= u /\
  forall k d, 0 < d <= 1000 ->
   (t - 8 - d <= k * d <= t - 6 -> create_scte35box 3 (Some k) d <> Ok (enc (splice_box 3 (k * d) t))) /\
   (u - 8 - d <= k * d <= u - 6 -> create_scte35box 3 (Some k) d <> Ok (enc (splice_box 3 (k * d) u))).
Proof.
  exists 30, 50. split; [right; right; split; [reflexivity|left; reflexivity]|].
  split; [right; right; split; [reflexivity|right; reflexivity]|]. split; [lia|]. split; [lia|]. split; [lia|].
  intros k d D. split; intros K H; apply C34_message_pf in H; try (unfold splice_box; rewrite enc_leaf; discriminate);
    destruct H as (t & S & P & _ & R & E); apply splice_box_inj in E; try lia; subst t;
    unfold splice, splice_second in S; cbn in S; lia.
Qed.

(** ** C35 *)
Lemma plain_ascii : forall s, plain_text s -> ascii_text s = true.
Proof.
  induction s as [|c s IH]; intros H; [reflexivity|]. unfold plain_text in *. cbn [bstr] in H. inversion H; subst.
  cbn [ascii_text]. rewrite IH by auto. unfold ascii_char. rewrite andb_true_r. lia.
Qed.
Lemma read_string_ok : forall s r, no_nul s -> read_string (bstr s ++ 0 :: r) = Ok (s, r).
Proof.
  induction s as [|c s IH]; intros r H; [reflexivity|]. unfold no_nul in *. cbn [bstr In] in H.
  cbn [bstr app read_string]. destruct (Z.eqb_spec (Z.of_nat (nat_of_ascii c)) 0) as [E|_]; [tauto|].
  rewrite IH by tauto. cbn [bind]. rewrite Nat2Z.id, ascii_nat_embedding. reflexivity.
Qed.
Lemma send_be32 : forall z r, 0 <= z < 4294967296 -> send_u32 (be32 z ++ r) = Ok (z, r).
Proof.
  intros z r H. unfold send_u32. assert (X : btake 4 (be32 z ++ r) = be32 z) by (apply btake_len'; rewrite blen_be32; reflexivity).
  assert (Y : bdrop 4 (be32 z ++ r) = r) by (apply bdrop_len'; rewrite blen_be32; reflexivity).
  rewrite X, Y. unfold str_to_uint32. rewrite blen_be32. cbn [Z.eqb Pos.eqb bind]. rewrite be32_val by auto.
  reflexivity.
Qed.
Lemma emsg_reads : forall scheme value ts delta d mid data pl,
  no_nul scheme -> no_nul value ->
  0 <= ts < 4294967296 -> 0 <= delta < 4294967296 -> 0 <= d < 4294967296 -> 0 <= mid < 4294967296 ->
  pl = event_payload (bstr scheme) (bstr value) ts delta d mid data -> 8 + blen pl < 4294967296 ->
  read_emsg (enc (Leaf (bstr "emsg") pl)) = Ok (mk_emsg_read 0 scheme value ts delta d mid data).
Proof.
  intros scheme value ts delta d mid data pl N1 N2 A B C D P S. rewrite enc_leaf. unfold read_emsg.
  assert (L0 := Zle_0_nat (List.length pl)). fold (blen pl) in L0.
  assert (X1 : btake 4 ((be32 (8 + blen pl) ++ bstr "emsg") ++ pl) = be32 (8 + blen pl)).
  { rewrite <- app_assoc. apply btake_len'. rewrite blen_be32. reflexivity. }
  rewrite X1, u32_ok by apply blen_be32. cbn [bind]. rewrite be32_val by lia.
  assert (H8 : blen (be32 (8 + blen pl) ++ bstr "emsg") = 8) by (rewrite blen_app, blen_be32; reflexivity).
  set (h := be32 (8 + blen pl) ++ bstr "emsg") in *. clearbody h. clear X1.
  assert (X2 : byte_at 8 (h ++ pl) = Ok 0). { rewrite P. unfold event_payload. apply byte8; auto. }
  rewrite X2. cbn [bind Z.eqb].
  set (rest := bstr scheme ++ 0 :: bstr value ++ 0 :: be32 ts ++ be32 delta ++ be32 d ++ be32 mid ++ data).
  assert (PL : pl = [0; 0; 0; 0] ++ rest) by (rewrite P; reflexivity).
  assert (X3 : bslice 12 (8 + blen pl) (h ++ pl) = rest).
  { assert (Y : h ++ pl = (h ++ [0; 0; 0; 0]) ++ rest ++ []) by (rewrite PL, app_nil_r, app_assoc; reflexivity).
    rewrite Y. apply bslice_len'.
    - rewrite blen_app, H8. reflexivity.
    - rewrite PL, blen_app. change (blen [0;0;0;0]) with 4. lia. }
  rewrite X3. unfold rest. rewrite read_string_ok by auto. cbn [bind]. rewrite read_string_ok by auto. cbn [bind].
  rewrite send_be32 by auto. cbn [bind]. rewrite send_be32 by auto. cbn [bind]. rewrite send_be32 by auto. cbn [bind].
  rewrite send_be32 by auto. cbn [bind]. reflexivity.
Qed.

(** For ASCII texts and 32-bit fields the box is produced, its declared size is
    its length, and the reader gets every field back. *)
Lemma C35_round_trip_partial_pf : forall scheme value ts delta d mid data,
  plain_text scheme -> plain_text value -> plain_text data -> no_nul scheme -> no_nul value ->
  0 <= ts < 4294967296 -> 0 <= delta < 4294967296 -> 0 <= d < 4294967296 -> 0 <= mid < 4294967296 ->
  30 + blen (bstr scheme) + blen (bstr value) + blen (bstr data) < 4294967296 ->
  exists b, emsg_box (mk_emsg scheme value ts delta d mid data) = Ok b /\
    btake 4 b = be32 (blen b) /\ bslice 4 8 b = bstr "emsg" /\
    read_emsg b = Ok (mk_emsg_read 0 scheme value ts delta d mid (bstr data)).
Proof.
  intros scheme value ts delta d mid data P1 P2 P3 N1 N2 A B C D S. rewrite !blen_bstr in S.
  destruct (emsg_total scheme value ts delta d mid data A B C D S) as [b E]. exists b. split; [auto|].
  apply emsg_enc in E; try (apply plain_ascii; auto). rewrite E.
  remember (event_payload (bstr scheme) (bstr value) ts delta d mid (bstr data)) as pl eqn:P.
  assert (SZ : 8 + blen pl < 4294967296).
  { rewrite P. unfold event_payload. change (0 :: be32 ts ++ ?x) with ([0] ++ be32 ts ++ x).
    change (0 :: bstr value ++ ?x) with ([0] ++ bstr value ++ x).
    rewrite !blen_app, !blen_be32, !blen_bstr. change (blen [0;0;0;0]) with 4. change (blen [0]) with 1. lia. }
  split; [|split].
  - rewrite enc_leaf at 1. rewrite <- app_assoc. rewrite btake_len' by (rewrite blen_be32; reflexivity). f_equal.
    rewrite enc_leaf, !blen_app, blen_be32. change (blen (bstr "emsg")) with 4. lia.
  - rewrite enc_leaf, <- app_assoc. apply bslice_len'; [rewrite blen_be32; reflexivity|reflexivity].
  - eapply emsg_reads; eauto.
Qed.
Example C35_round_trip_case : plain_text "urn:x" /\ plain_text "" /\ no_nul "urn:x" /\
  exists b, emsg_box (mk_emsg "urn:x" "" 90000 5 10 4294967295 "hello") = Ok b /\
    read_emsg b = Ok (mk_emsg_read 0 "urn:x" "" 90000 5 10 4294967295 (bstr "hello")).
Proof.
  split; [unfold plain_text; cbn; repeat constructor; lia|]. split; [constructor|].
  split; [unfold no_nul; cbn; lia|]. eexists. split; vm_compute; reflexivity.
Qed.

(** A field outside 32 bits is an error, never a wrong box. *)
Lemma C35_range_pf : forall scheme value ts delta d mid data b,
  emsg_box (mk_emsg scheme value ts delta d mid data) = Ok b ->
  0 <= ts < 4294967296 /\ 0 <= delta < 4294967296 /\ 0 <= d < 4294967296 /\ 0 <= mid < 4294967296.
Proof.
  intros scheme value ts delta d mid data b H. unfold emsg_box in H.
  cbn [em_scheme em_value em_timescale em_delta em_duration em_id em_data] in H.
  repeat match type of H with
  | bind (uint32_to_str ?z) _ = _ =>
      let E := fresh "E" in destruct (uint32_to_str z) eqn:E; cbn [bind] in H; [|discriminate];
      apply p32_inv in E; destruct E as [? ->]
  end. auto.
Qed.
Example C35_range_case : exists b, emsg_box (mk_emsg "s" "v" 1 0 4294967295 7 "") = Ok b.
Proof. eexists. vm_compute. reflexivity. Qed.
Lemma p32_err : forall z e, uint32_to_str z = Err e -> e = "struct.error"%string.
Proof. intros z e H. unfold uint32_to_str in H. destruct ((0 <=? z) && (z <? 4294967296)); congruence. Qed.
Lemma C35_out_of_range_pf : forall scheme value ts delta d mid data, delta < 0 \/ 4294967296 <= delta ->
  emsg_box (mk_emsg scheme value ts delta d mid data) = Err "struct.error".
Proof.
  intros scheme value ts delta d mid data H. unfold emsg_box.
  cbn [em_scheme em_value em_timescale em_delta em_duration em_id em_data].
  destruct (uint32_to_str (12 + _ + _ + _ + _ + _ + _)) eqn:E1.
  2:{ apply p32_err in E1. rewrite E1. reflexivity. }
  cbn [bind]. destruct (uint32_to_str ts) eqn:E2.
  2:{ apply p32_err in E2. rewrite E2. reflexivity. }
  cbn [bind]. unfold uint32_to_str. destruct ((0 <=? delta) && (delta <? 4294967296)) eqn:E3; [lia|]. reflexivity.
Qed.
Example C35_out_of_range_case : -1 < 0 /\ emsg_box (mk_emsg "s" "v" 1 (-1) 0 0 "") = Err "struct.error".
Proof. split; [lia|reflexivity]. Qed.

(** With a character outside ASCII the declared size is too small. *)
Lemma C35_non_ascii_refuted_pf : exists e b, emsg_box e = Ok b /\ be_val (btake 4 b) < blen b.
Proof.
  exists (mk_emsg "s" (String (ascii_of_nat 228) EmptyString) 1 0 1 1 ""). eexists.
  split; [vm_compute; reflexivity|]. vm_compute. reflexivity.
Qed.
(** A NUL character inside a text field is not refused, and the reader gets
    other fields back. *)
Lemma C35_nul_refuted_pf : exists e b, emsg_box e = Ok b /\ plain_text (em_scheme e) /\
  exists r, read_emsg b = Ok r /\ er_scheme r <> em_scheme e.
Proof.
  exists (mk_emsg (String "a" (String (ascii_of_nat 0) "b")) "v" 1 0 1 1 ""). eexists.
  split; [vm_compute; reflexivity|]. split; [unfold plain_text; cbn; repeat constructor; lia|].
  eexists. split; [vm_compute; reflexivity|]. vm_compute. discriminate.
Qed.
