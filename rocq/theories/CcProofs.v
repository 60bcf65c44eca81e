(** The generic filter step by step, for classes that note positions. *)
From Coq Require Import ZifyBool ZifyNat.
From Verif Require Import Base BaseProofs BytesModel BytesProofs BoxSpec Mp4Model Mp4Proofs CcModel.
Open Scope Z_scope.

Lemma child_step : forall S (rec : bytes -> bytes -> Z -> S -> result (bytes * S)) c lk k rest fuel pre fp output st out st1,
  box_ok c lk k -> rec (btype k) (enc k) (fp + blen pre) st = Ok (out, st1) ->
  child_loop rec (Datatypes.S fuel) (pre ++ enc k ++ rest) fp (blen pre) output st =
  child_loop rec fuel ((pre ++ enc k) ++ rest) fp (blen (pre ++ enc k)) (output ++ out) st1.
Proof.
  intros S rec c lk k rest fuel pre fp output st out st1 HK R.
  assert (T := box_ok_type _ _ _ HK). assert (Z1 := blen_enc k T). cbn [child_loop].
  assert (B : blen pre <? blen (pre ++ enc k ++ rest) = true).
  { apply Z.ltb_lt. rewrite !blen_app. assert (Q1 := blen_nonneg (body k)). assert (Q2 := blen_nonneg rest). lia. }
  rewrite B.
  assert (C : bslice (blen pre) (blen pre + 8) (pre ++ enc k ++ rest) = btake 8 (enc k ++ rest)).
  { unfold bslice. rewrite bdrop_len. f_equal. lia. }
  rewrite C, (check_box_enc _ _ _ _ HK). cbn [bind]. rewrite bslice_mid by reflexivity. rewrite R. cbn [bind].
  rewrite <- app_assoc, blen_app. reflexivity.
Qed.

Section Ran.
  Context {S : Type}.
  Variable rec : bytes -> bytes -> Z -> S -> result (bytes * S).
  Inductive ran : list box -> Z -> S -> bytes -> S -> Prop :=
  | ran_nil : forall fp st, ran [] fp st [] st
  | ran_cons : forall k r fp st out1 st1 out2 st2,
      rec (btype k) (enc k) fp st = Ok (out1, st1) ->
      ran r (fp + blen (enc k)) st1 out2 st2 -> ran (k :: r) fp st (out1 ++ out2) st2.
  Lemma ran_app : forall a b fp st out1 st1 out2 st2,
    ran a fp st out1 st1 -> ran b (fp + blen (encs a)) st1 out2 st2 -> ran (a ++ b) fp st (out1 ++ out2) st2.
  Proof.
    induction a as [|k r IH]; intros b fp st out1 st1 out2 st2 R1 R2.
    - inversion R1; subst. cbn [encs app] in *. change (blen []) with 0 in R2. rewrite Z.add_0_r in R2. exact R2.
    - inversion R1; subst. cbn [encs app] in *. rewrite <- app_assoc. econstructor; [eassumption|].
      eapply IH; [eassumption|]. rewrite blen_app in R2. rewrite <- Z.add_assoc. exact R2.
  Qed.
  Lemma ran_same : forall l fp st, (forall b fp, In b l -> rec (btype b) (enc b) fp st = Ok (enc b, st)) -> ran l fp st (encs l) st.
  Proof.
    induction l as [|k r IH]; intros fp st H; [constructor|]. cbn [encs]. econstructor; [apply H; left; reflexivity|].
    apply IH. intros. apply H. right. assumption.
  Qed.
  Lemma child_ran : forall c lk ks fuel pre fp output st out st1,
    boxes_ok c lk ks -> ran ks (fp + blen pre) st out st1 -> (List.length (encs ks) < fuel)%nat ->
    child_loop rec fuel (pre ++ encs ks) fp (blen pre) output st = Ok (output ++ out, st1).
  Proof.
    intros c lk. induction ks as [|k r IH]; intros fuel pre fp output st out st1 OK R L; (destruct fuel as [|fuel]; [lia|]).
    - inversion R; subst. cbn [child_loop encs]. rewrite !app_nil_r, Z.ltb_irrefl. reflexivity.
    - inversion R as [|k0 r0 fp0 st0 out1 s1 out2 s2 E1 E2]; subst. destruct OK as [K OK]. cbn [encs] in *.
      rewrite (child_step S rec c lk k (encs r) fuel pre fp output st out1 s1 K E1).
      rewrite app_assoc. apply IH; [exact OK| |].
      + rewrite blen_app, Z.add_assoc. exact E2.
      + assert (Z1 := blen_enc k (box_ok_type _ _ _ K)). assert (Q1 := blen_nonneg (body k)). rewrite app_length in L. unfold blen in *. lia.
  Qed.
End Ran.

Section Cls.
  Context {S : Type}.
  Variable cls : fclass S.
  Lemma filter_leaf : forall f t d fp st, ~ In t (fc_composite cls) ->
    filter_box cls (Datatypes.S f) t d fp st = process_leaf cls t d (fc_note cls t fp st).
  Proof.
    intros f t d fp st N. cbn [filter_box]. destruct (bytes_in t (fc_composite cls)) eqn:E; [|reflexivity].
    apply (proj1 (bytes_in_iff _ _)) in E. contradiction.
  Qed.
  Lemma filter_node : forall lk t ks ks1 f fp st st1, box_ok (fc_composite cls) lk (Node t ks) ->
    ran (filter_box cls f) ks (fp + 8) (fc_note cls t fp st) (encs ks1) st1 -> blen (encs ks1) = blen (encs ks) ->
    (List.length (enc (Node t ks)) <= f)%nat ->
    filter_box cls (Datatypes.S f) t (enc (Node t ks)) fp st = Ok (enc (Node t ks1), st1).
  Proof.
    intros lk t ks ks1 f fp st st1 OK R L F. apply box_ok_node in OK. destruct OK as (T & I & SZ & OK).
    cbn [filter_box]. rewrite (proj2 (bytes_in_iff _ _) I). rewrite !enc_node in *. rewrite L. rewrite app_assoc in *.
    set (hdr := be32 (8 + blen (encs ks)) ++ t) in *.
    assert (HH : blen hdr = 8) by (unfold hdr; rewrite blen_app, blen_be32; lia).
    assert (TK : btake 8 (hdr ++ encs ks) = hdr) by (rewrite <- HH; apply btake_len).
    rewrite TK. rewrite <- HH at 1.
    rewrite (child_ran (filter_box cls f) _ _ ks f hdr fp hdr _ (encs ks1) st1 OK); [| rewrite HH; exact R |].
    2:{ rewrite app_length in F. unfold blen in HH. lia. }
    cbn [bind]. rewrite !blen_app, L, Z.eqb_refl. cbn [negb]. rewrite app_assoc. reflexivity.
  Qed.

  Definition top_fun (f : nat) (t d : bytes) (fp : Z) (st : S) : result (bytes * S) :=
    if bytes_in t (fc_top cls) then filter_box cls f t d fp st else Ok (d, st).
  (** every fuel that is enough *)
  Inductive tran : list box -> Z -> S -> bytes -> S -> Prop :=
  | tran_nil : forall fp st, tran [] fp st [] st
  | tran_cons : forall k r fp st out1 st1 out2 st2,
      (forall f, (List.length (enc k) < f)%nat -> top_fun f (btype k) (enc k) fp st = Ok (out1, st1)) ->
      tran r (fp + blen out1) st1 out2 st2 -> tran (k :: r) fp st (out1 ++ out2) st2.
  Lemma tran_app : forall a b fp st out1 st1 out2 st2,
    tran a fp st out1 st1 -> tran b (fp + blen out1) st1 out2 st2 -> tran (a ++ b) fp st (out1 ++ out2) st2.
  Proof.
    induction a as [|k r IH]; intros b fp st out1 st1 out2 st2 R1 R2.
    - inversion R1; subst. cbn [app] in *. change (blen []) with 0 in R2. rewrite Z.add_0_r in R2. exact R2.
    - inversion R1; subst. cbn [app] in *. rewrite <- app_assoc. econstructor; [eassumption|].
      eapply IH; [eassumption|]. rewrite blen_app in R2. rewrite <- Z.add_assoc. exact R2.
  Qed.
  Lemma tran_same : forall l fp st, (forall b f fp, In b l -> (List.length (enc b) < f)%nat -> top_fun f (btype b) (enc b) fp st = Ok (enc b, st)) ->
    tran l fp st (encs l) st.
  Proof.
    induction l as [|k r IH]; intros fp st H; [constructor|]. cbn [encs]. econstructor; [intros; apply H; [left; reflexivity|assumption]|].
    apply IH. intros. apply H; [right|]; assumption.
  Qed.
  Lemma top_ran : forall lk l fuel pre output boxes st out st1,
    boxes_ok (fc_composite cls) lk l -> tran l (blen output) st out st1 -> (List.length (encs l) + 1 < fuel)%nat ->
    exists bx, top_loop cls fuel (pre ++ encs l) (blen pre) output boxes st = Ok (output ++ out, bx, st1).
  Proof.
    intros lk. induction l as [|k r IH]; intros fuel pre output boxes st out st1 OK R L; (destruct fuel as [|fuel]; [lia|]).
    - inversion R; subst. cbn [top_loop encs]. rewrite !app_nil_r, Z.ltb_irrefl. eexists. reflexivity.
    - inversion R as [|k0 r0 fp0 st0 out1 s1 out2 s2 E1 E2]; subst. destruct OK as [K OK]. cbn [encs] in *.
      assert (T := box_ok_type _ _ _ K). assert (Z1 := blen_enc k T). assert (Q1 := blen_nonneg (body k)).
      cbn [top_loop].
      assert (B : blen pre <? blen (pre ++ enc k ++ encs r) = true).
      { apply Z.ltb_lt. rewrite !blen_app. assert (Q2 := blen_nonneg (encs r)). lia. }
      rewrite B.
      assert (C : bslice (blen pre) (blen pre + 8) (pre ++ enc k ++ encs r) = btake 8 (enc k ++ encs r)).
      { unfold bslice. rewrite bdrop_len. f_equal. lia. }
      rewrite C, (check_box_enc _ _ _ _ K). cbn [bind]. rewrite bslice_mid by reflexivity.
      rewrite app_length in L. unfold top_fun in E1. rewrite E1 by lia. cbn [bind].
      replace (pre ++ enc k ++ encs r) with ((pre ++ enc k) ++ encs r) by (symmetry; apply app_assoc).
      replace (blen pre + blen (enc k)) with (blen (pre ++ enc k)) by apply blen_app.
      rewrite app_assoc. apply IH; [exact OK| |unfold blen in *; lia]. rewrite blen_app. exact E2.
  Qed.
End Cls.

(** ** Python slices inside the data *)
Lemma py_slice_in : forall a z d, 0 <= a <= z -> z <= blen d -> py_slice a z d = bslice a z d.
Proof. intros a z d A Z1. unfold py_slice, clip. rewrite !(proj2 (Z.ltb_ge _ _)), !Z.min_l by lia. reflexivity. Qed.
Lemma py_slice_mid : forall pre x post a z, a = blen pre -> z = blen pre + blen x -> py_slice a z (pre ++ x ++ post) = x.
Proof.
  intros pre x post a z -> ->. assert (P := blen_nonneg pre). assert (X := blen_nonneg x). assert (Q := blen_nonneg post).
  rewrite py_slice_in; [apply bslice_mid; reflexivity|lia|rewrite !blen_app; lia].
Qed.
Lemma py_slice_end : forall pre post a z, a = blen pre -> z = blen pre + blen post -> py_slice a z (pre ++ post) = post.
Proof. intros. rewrite <- (app_nil_r post) at 1. apply py_slice_mid; auto. Qed.
Lemma py_at_mid : forall pre x post i, i = blen pre -> py_at i (pre ++ x :: post) = Ok x.
Proof.
  intros pre x post i ->. assert (P := blen_nonneg pre). unfold py_at, byte_at. rewrite (proj2 (Z.ltb_ge _ _)) by lia.
  rewrite nth_error_app2 by (unfold blen; lia). replace (Z.to_nat (blen pre) - List.length pre)%nat with 0%nat by (unfold blen; lia). reflexivity.
Qed.
