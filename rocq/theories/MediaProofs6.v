(** Fragment numbers, brands and copied boxes of whole segments. *)
From Verif Require Import Base BaseProofs BytesModel BytesProofs Mp4Model Mp4Proofs BoxSpec EmsgModel TtmlModel TimeModel
  MediaModel MediaSpec MediaProofs MediaProofs2 MediaProofs3 MediaProofs4.
From Coq Require Import ZifyBool ZifyNat.
Open Scope Z_scope.

(** ** Numbers *)
Definition numbered (n : Z) (a b : bytes) : Prop :=
  exists vf, blen vf = 4 /\ vf = btake 4 a /\ b = vf ++ be32 n /\ 0 <= n < 4294967296.
Lemma Forall2_flat : forall A B C D (R : A -> B -> Prop) (f : C -> list A) (g : D -> list B) l m,
  Forall2 (fun x y => Forall2 R (f x) (g y)) l m -> Forall2 R (flat_map f l) (flat_map g m).
Proof. induction 1; cbn [flat_map]; auto. apply Forall2_app; auto. Qed.
Definition no_mfhd (b : box) : Prop := kid_mfhd b = [] /\ top_mfhd b = [].
Lemma flat_nil : forall A B (f : A -> list B) l, Forall (fun x => f x = []) l -> flat_map f l = [].
Proof. induction 1; cbn [flat_map]; auto. rewrite H, IHForall. auto. Qed.

Lemma mfhd_kid : forall r n d b bs d', rq_number r = Some n -> Forall no_mfhd (rq_events r) ->
  doc_change r d b bs d' -> Forall2 (numbered n) (kid_mfhd b) (flat_map kid_mfhd bs).
Proof.
  intros r n d b bs d' RN EV H. inversion H; subst;
    try (cbn [flat_map kid_mfhd app]; try constructor; fail).
  - cbn [flat_map kid_mfhd app]. rewrite app_nil_r.
    destruct (bytes_eqb t (bstr "mfhd")) eqn:E; [|constructor].
    apply bytes_eqb_eq in E. subst. exfalso. match goal with N : ~ In _ special |- _ => apply N; simpl; auto 10 end.
  - cbn [flat_map kid_mfhd app]. change (bytes_eqb (bstr "styp") (bstr "mfhd")) with false. cbv iota. cbn [app].
    rewrite flat_nil; [constructor|]. eapply Forall_impl; [|exact EV]. intros ? [? _]; auto.
  - cbn [flat_map kid_mfhd app]. change (bytes_eqb (bstr "mfhd") (bstr "mfhd")) with true. cbv iota. cbn [app].
    constructor; [|constructor]. exists vf. rewrite btake_len' by lia.
    assert (n0 = n) by congruence. subst. auto.
  - congruence.
Qed.
Lemma mfhd_kids : forall r n ks d ks' d', rq_number r = Some n -> Forall no_mfhd (rq_events r) ->
  doc_changes r d ks ks' d' -> Forall2 (numbered n) (flat_map kid_mfhd ks) (flat_map kid_mfhd ks').
Proof.
  intros r n. induction ks as [|k ks IH]; intros d ks' d' RN EV H.
  - inversion H; subst. constructor.
  - apply doc_changes_cons in H. destruct H as (d1 & x & y & -> & A & B).
    cbn [flat_map]. rewrite flat_map_app. apply Forall2_app; eauto using mfhd_kid.
Qed.
Lemma mfhd_tops : forall r n l d l' d', rq_number r = Some n -> Forall no_mfhd (rq_events r) ->
  top_changes r d l l' d' -> Forall2 (numbered n) (mfhds l) (mfhds l').
Proof.
  intros r n. induction l as [|k l IH]; intros d l' d' RN EV H.
  - inversion H; subst. constructor.
  - apply top_changes_cons in H. destruct H as (d1 & x & y & -> & A & K).
    unfold mfhds in *. cbn [flat_map]. rewrite flat_map_app. apply Forall2_app; eauto.
    destruct K as [(_ & K)|(N & -> & _)].
    + destruct k as [t pl|t ks].
      * cbn [top_mfhd]. rewrite flat_nil; [constructor|].
        inversion K; subst; repeat constructor. eapply Forall_impl; [|exact EV]. intros ? [_ ?]; auto.
      * inversion K; subst. cbn [flat_map top_mfhd]. rewrite app_nil_r.
        destruct (bytes_eqb t (bstr "moof")); [|constructor]. eapply mfhd_kids; eauto.
    + cbn [flat_map]. rewrite app_nil_r. destruct k as [t pl|t ks]; [constructor|].
      cbn [top_mfhd]. destruct (bytes_eqb t (bstr "moof")) eqn:E; [|constructor].
      apply bytes_eqb_eq in E. subst. exfalso. apply N. simpl; auto.
Qed.

Lemma inserted_flat : forall A (f : box -> list A) x l l', Forall (fun b => f b = []) x -> inserted x l l' ->
  flat_map f l' = flat_map f l.
Proof.
  intros A f x l l' F [(a & m & b & -> & _ & _ & ->)|(_ & ->)]; rewrite !flat_map_app, (flat_nil _ _ f x) by auto; reflexivity.
Qed.
Lemma inserted_filter : forall f x l l', Forall (fun b => f b = false) x -> inserted x l l' ->
  filter f l' = filter f l.
Proof.
  intros f x l l' F. assert (E : filter f x = []) by (induction F as [|b y H H2 IH]; auto; cbn [filter]; rewrite H; auto).
  intros [(a & m & b & -> & _ & _ & ->)|(_ & ->)]; rewrite !filter_app, E; reflexivity.
Qed.
Lemma events_leaf : forall p, Forall (fun b => exists pl, b = Leaf (bstr "emsg") pl) (events p).
Proof.
  intros. unfold events. destruct (create_scte35box _ _ _) as [[|z b]|]; repeat constructor; eauto.
Qed.
Lemma extras_leaf : forall p st n, Forall (fun b => exists t pl, b = Leaf t pl /\ (t = bstr "emsg" \/ t = bstr "sidx")) (extras p st n).
Proof.
  intros. unfold extras. destruct (mp_emsg_last p), (mp_insert_sidx p); cbn [app]; repeat constructor; eauto;
  destruct (mp_timescale p), (ms_tfdt st), (ms_duration st); repeat constructor; eauto.
Qed.
Lemma prepared_mfhds : forall p l, mfhds (prepared p l) = mfhds l.
Proof.
  intros. unfold prepared. destruct (mp_is_ttml p); auto. unfold mfhds. induction l as [|[t pl|t ks] l IH]; [reflexivity| |].
  - cbn [map flat_map retime top_mfhd]. rewrite IH. destruct (bytes_eqb t (bstr "mdat")); reflexivity.
  - cbn [map flat_map retime]. rewrite IH. reflexivity.
Qed.
Lemma prepared_styps : forall p l, styps (prepared p l) = styps l.
Proof.
  intros. unfold prepared. destruct (mp_is_ttml p); auto. unfold styps. induction l as [|[t pl|t ks] l IH]; [reflexivity| |].
  - cbn [map flat_map retime top_styp]. rewrite IH. destruct (bytes_eqb t (bstr "mdat")) eqn:E; auto.
    apply bytes_eqb_eq in E. subst. reflexivity.
  - cbn [map flat_map retime]. rewrite IH. reflexivity.
Qed.

Lemma C11_lem : forall p n l out st, segment_ok l -> mp_seg_nr p = Some n -> media_filter p (encs l) = Ok (out, st) ->
  exists l', out = encs l' /\ wf_boxes l' /\
    Forall2 (fun a b => b = btake 4 a ++ be32 n) (mfhds l) (mfhds l') /\
    (mfhds l <> [] -> 0 <= n < 4294967296).
Proof.
  intros p n l out st OK SN H. apply media_filter_boxes in H; auto.
  destruct H as (l1 & l2 & d & k & TC & WX & INS & -> & W). exists l2. split; auto. split; auto.
  assert (F : Forall2 (numbered n) (mfhds l) (mfhds l2)).
  { unfold mfhds. rewrite (inserted_flat _ top_mfhd _ _ _) with (2 := INS).
    - fold (mfhds l) (mfhds l1). rewrite <- (prepared_mfhds p l). eapply mfhd_tops; [| |exact TC]; [exact SN|].
      cbn [rq_events req_of]. eapply Forall_impl; [|apply events_leaf]. intros b [pl ->]. split; reflexivity.
    - eapply Forall_impl; [|apply extras_leaf]. intros b (t & pl & -> & _). reflexivity. }
  split.
  - clear - F. induction F as [|a b x y H F IH]; constructor; auto. destruct H as (vf & _ & -> & -> & _). auto.
  - intros N. destruct F as [|a b x y H F]; [contradiction|]. destruct H as (vf & _ & _ & _ & R). auto.
Qed.

(** ** Copied boxes *)
Lemma copied_tops : forall r l d l' d', segment_ok l -> Forall (fun b => copied b = false) (rq_events r) ->
  top_changes r d l l' d' -> filter copied l' = filter copied l.
Proof.
  intros r. induction l as [|k l IH]; intros d l' d' OK EV H.
  - inversion H; subst. auto.
  - destruct OK as [O1 O2]. apply top_changes_cons in H. destruct H as (d1 & x & y & -> & A & K).
    rewrite filter_app. apply IH in A; auto. rewrite A. change (k :: l) with ([k] ++ l).
    rewrite (filter_app _ [k]). f_equal.
    destruct K as [(I & K)|(N & -> & _)]; auto. destruct k as [t pl|t ks].
    + cbn [btype] in I. inversion K; subst; auto;
        try (exfalso; cbn [tops In] in I; decompose [or] I; try contradiction; discriminate).
      cbn [filter copied btype]. unfold copied at 1. cbn [btype].
      change (bytes_in (bstr "styp") [bstr "styp"; bstr "sidx"; bstr "moof"; bstr "emsg"]) with true. cbn [negb].
      clear - EV. induction EV as [|b y H H2 IH]; auto; cbn [filter]; rewrite H; auto.
    + inversion K; subst. cbn [filter]. unfold copied. cbn [btype]. apply box_ok_node in O1. destruct O1 as (_ & I2 & _).
      cbn [btype containers tops In] in *. decompose [or] I2; subst; auto; try contradiction.
      exfalso. decompose [or] I; try discriminate; auto.
Qed.
Lemma C14_copied_lem : forall p l out st, segment_ok l -> mp_is_ttml p = false -> media_filter p (encs l) = Ok (out, st) ->
  exists l', out = encs l' /\ wf_boxes l' /\ filter copied l' = filter copied l.
Proof.
  intros p l out st OK NT H. apply media_filter_boxes in H; auto.
  destruct H as (l1 & l2 & d & k & TC & WX & INS & -> & W). exists l2. split; auto. split; auto.
  rewrite (inserted_filter copied _ _ _) with (2 := INS).
  - unfold prepared in TC. rewrite NT in TC. eapply copied_tops; [exact OK| |exact TC].
    cbn [rq_events req_of]. eapply Forall_impl; [|apply events_leaf]. intros b [pl ->]. reflexivity.
  - eapply Forall_impl; [|apply extras_leaf]. intros b (t & pl & -> & [->| ->]); reflexivity.
Qed.

(** ** Brands *)
Lemma brands_inj : forall a b, Forall (fun x : bytes => blen x = 4) a -> Forall (fun x : bytes => blen x = 4) b ->
  List.concat a = List.concat b -> a = b.
Proof.
  induction a as [|x a IH]; intros [|y b] FA FB E; auto.
  - exfalso. inversion FB; subst. apply (f_equal blen) in E. cbn [List.concat] in E. rewrite blen_app in E.
    assert (X := blen_nonneg (List.concat b)). change (blen []) with 0 in E. lia.
  - exfalso. inversion FA; subst. apply (f_equal blen) in E. cbn [List.concat] in E. rewrite blen_app in E.
    assert (X := blen_nonneg (List.concat a)). change (blen []) with 0 in E. lia.
  - inversion FA; inversion FB; subst. cbn [List.concat] in E. apply app_inj_len in E; [|lia]. destruct E as [-> E].
    f_equal. auto.
Qed.
Lemma without_filter : forall l, without_lmsg l = filter (fun b => negb (bytes_eqb b (bstr "lmsg"))) l.
Proof. induction l as [|b l IH]; auto. cbn [without_lmsg filter]. rewrite IH. destruct (bytes_eqb b (bstr "lmsg")); auto. Qed.
Definition branded (last : bool) (a b : bytes) : Prop :=
  exists brands, Forall (fun x : bytes => blen x = 4) brands /\ a = List.concat brands /\ b = List.concat (brand_list brands last).
Lemma styp_tops : forall r l d l' d', Forall (fun b => top_styp b = []) (rq_events r) ->
  top_changes r d l l' d' -> Forall2 (branded (rq_last r)) (styps l) (styps l').
Proof.
  intros r. induction l as [|k l IH]; intros d l' d' EV H.
  - inversion H; subst. constructor.
  - apply top_changes_cons in H. destruct H as (d1 & x & y & -> & A & K).
    unfold styps in *. cbn [flat_map]. rewrite flat_map_app. apply Forall2_app; eauto.
    destruct K as [(I & K)|(N & -> & _)].
    + destruct k as [t pl|t ks].
      * inversion K; subst; try (constructor; fail).
        -- cbn [flat_map top_styp]. destruct (bytes_eqb t (bstr "styp")) eqn:E; [|constructor].
           apply bytes_eqb_eq in E. subst. exfalso. match goal with N : ~ In _ special |- _ => apply N; simpl; auto 10 end.
        -- cbn [flat_map]. rewrite flat_nil by auto. rewrite app_nil_r. cbn [top_styp].
           change (bytes_eqb (bstr "styp") (bstr "styp")) with true. cbv iota.
           constructor; [|constructor]. exists brands. split; auto. split; auto.
           unfold brand_list. rewrite without_filter. reflexivity.
      * inversion K; subst. constructor.
    + cbn [flat_map]. rewrite app_nil_r. destruct k as [t pl|t ks]; [|constructor].
      cbn [top_styp]. destruct (bytes_eqb t (bstr "styp")) eqn:E; [|constructor].
      apply bytes_eqb_eq in E. subst. exfalso. apply N. simpl; auto.
Qed.
Lemma C15_lem : forall p l out st, segment_ok l -> media_filter p (encs l) = Ok (out, st) ->
  exists l', out = encs l' /\ wf_boxes l' /\
    Forall2 (fun a b => forall brands, Forall (fun x : bytes => blen x = 4) brands -> a = List.concat brands ->
                        b = List.concat (brand_list brands (mp_lmsg p))) (styps l) (styps l').
Proof.
  intros p l out st OK H. apply media_filter_boxes in H; auto.
  destruct H as (l1 & l2 & d & k & TC & WX & INS & -> & W). exists l2. split; auto. split; auto.
  assert (F : Forall2 (branded (mp_lmsg p)) (styps l) (styps l2)).
  { unfold styps. rewrite (inserted_flat _ top_styp _ _ _) with (2 := INS).
    - fold (styps l) (styps l1). rewrite <- (prepared_styps p l).
      change (mp_lmsg p) with (rq_last (req_of p (prepared_size p l))). eapply styp_tops; [|exact TC].
      cbn [rq_events req_of]. eapply Forall_impl; [|apply events_leaf]. intros b [pl ->]. reflexivity.
    - eapply Forall_impl; [|apply extras_leaf]. intros b (t & pl & -> & [->| ->]); reflexivity. }
  clear - F. induction F as [|a b x y H F IH]; constructor; auto. destruct H as (br & B1 & B2 & ->).
  intros brands FB E. assert (brands = br) by (apply brands_inj; congruence). subst. auto.
Qed.
