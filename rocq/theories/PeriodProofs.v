(** Lemmas about generate_period_data. *)
From Coq Require Import ZifyBool ZifyNat.
From Verif Require Import Base BaseProofs ConfigModel PeriodModel PeriodSpec.
Open Scope Z_scope.

(** *** Integer ranges *)
Lemma zrange_length : forall a b, List.length (zrange a b) = Z.to_nat (b - a + 1).
Proof. intros. unfold zrange. rewrite map_length, seq_length. reflexivity. Qed.
Lemma zrange_nth : forall a b i, (i < Z.to_nat (b - a + 1))%nat -> nth_error (zrange a b) i = Some (a + Z.of_nat i).
Proof.
  intros a b i H. unfold zrange. rewrite nth_error_map.
  rewrite (nth_error_nth' _ 0%nat) by (rewrite seq_length; exact H).
  rewrite seq_nth by exact H. reflexivity.
Qed.
Lemma zrange_in : forall a b x, In x (zrange a b) <-> a <= x <= b.
Proof.
  intros a b x. unfold zrange. rewrite in_map_iff. split.
  - intros (i & <- & H). apply in_seq in H. lia.
  - intros H. exists (Z.to_nat (x - a)). split; [lia|]. apply in_seq. lia.
Qed.

(** *** The loop *)

(** Everything in a dictionary but the durations. *)
Definition core (p : pdata) : pdata :=
  mk_pdata (pd_id p) (pd_start p) (pd_start_number p) (pd_duration p) (pd_pto p) (pd_start_s p)
           (pd_etp p) (pd_callback p) None None.
Lemma core_set_ad : forall d p, core (set_ad_duration d p) = core p.
Proof. reflexivity. Qed.
Lemma core_set_dur : forall d p, core (set_duration_s d p) = core p.
Proof. reflexivity. Qed.

Fixpoint mapM {A B} (f : A -> result B) (l : list A) : result (list B) :=
  match l with
  | [] => Ok []
  | x :: r => let* y := f x in let* ys := mapM f r in Ok (y :: ys)
  end.
Lemma mapM_ok : forall {A B} (f : A -> result B) l ys, mapM f l = Ok ys -> Forall2 (fun x y => f x = Ok y) l ys.
Proof.
  intros A B f. induction l as [|x l IH]; intros ys H; cbn [mapM] in H.
  - injection H as <-. constructor.
  - destruct (f x) eqn:E; cbn [bind] in H; [|discriminate].
    destruct (mapM f l) eqn:E2; cbn [bind] in H; [|discriminate].
    injection H as <-. constructor; auto.
Qed.
Lemma mapM_total : forall {A B} (f : A -> result B) l, (forall x, In x l -> exists y, f x = Ok y) -> exists ys, mapM f l = Ok ys.
Proof.
  intros A B f. induction l as [|x l IH]; intros H; cbn [mapM]; eauto.
  destruct (H x) as [y ->]; [left; auto|]. cbn [bind].
  destruct IH as [ys ->]; [intros; apply H; right; auto|]. cbn [bind]. eauto.
Qed.

Lemma period_loop_core : forall c n pd ad nrs acc r,
  period_loop c n pd ad nrs acc = Ok r ->
  exists ys, mapM (one_period c n pd) nrs = Ok ys /\ map core r = rev (map core ys) ++ map core acc.
Proof.
  intros c n pd ad. induction nrs as [|nr nrs IH]; intros acc r H; cbn [period_loop mapM] in *.
  - injection H as <-. exists []. auto.
  - destruct (one_period c n pd nr) as [q|] eqn:E; cbn [bind] in *; [|discriminate].
    apply IH in H. destruct H as (ys & -> & H). cbn [bind]. exists (q :: ys). split; [reflexivity|].
    rewrite H. cbn [map rev]. rewrite <- app_assoc. f_equal. cbn [app]. f_equal.
    destruct acc as [|p acc]; [reflexivity|].
    destruct (_ && _)%bool; reflexivity.
Qed.
Lemma period_loop_total : forall c n pd ad nrs acc,
  (exists ys, mapM (one_period c n pd) nrs = Ok ys) -> exists r, period_loop c n pd ad nrs acc = Ok r.
Proof.
  intros c n pd ad. induction nrs as [|nr nrs IH]; intros acc (ys & H); cbn [period_loop mapM] in *; eauto.
  destruct (one_period c n pd nr) as [q|]; cbn [bind] in *; [|discriminate].
  destruct (mapM (one_period c n pd) nrs); cbn [bind] in *; [|discriminate].
  apply IH. eauto.
Qed.
Lemma period_loop_durations : forall c n pd ad nrs acc r,
  period_loop c n pd ad nrs acc = Ok r ->
  Forall (fun p => pd_period_duration_s p = pd_etp p \/ pd_period_duration_s p = Some pd) acc ->
  Forall (fun p => pd_period_duration_s p = pd_etp p \/ pd_period_duration_s p = Some pd) r.
Proof.
  intros c n pd ad. induction nrs as [|nr nrs IH]; intros acc r H F; cbn [period_loop] in *.
  - injection H as <-. exact F.
  - destruct (one_period c n pd nr) as [q|] eqn:E; cbn [bind] in *; [|discriminate].
    apply IH in H; [exact H|]. constructor.
    + left. unfold one_period in E. destruct (py_div _ _); cbn [bind] in E; [|discriminate].
      destruct (etp_of _ _ _ _); cbn [bind] in E; [|discriminate].
      destruct (callback_of _ _ _); cbn [bind] in E; [|discriminate].
      injection E as <-. reflexivity.
    + destruct acc as [|p acc]; [constructor|]. destruct (_ && _)%bool; [|exact F].
      inversion F; subst. constructor; [right; reflexivity|assumption].
Qed.

Lemma fill_core : forall pd l, map core (fill_durations pd l) = map core l.
Proof.
  intros pd. induction l as [|p [|q r] IH]; [reflexivity|reflexivity|].
  cbn [fill_durations]. change (fill_durations pd (q :: r)) with (fill_durations pd (q :: r)) in IH.
  cbn [map] in *. f_equal; [|exact IH].
  destruct (pd_period_duration_s p); reflexivity.
Qed.
Lemma fill_length : forall pd l, List.length (fill_durations pd l) = List.length l.
Proof. intros. rewrite <- (map_length core), fill_core, map_length. reflexivity. Qed.
Lemma fill_nth : forall pd l i p, nth_error (fill_durations pd l) i = Some p -> (S i < List.length l)%nat ->
  exists q, nth_error l i = Some q /\
    pd_period_duration_s p = Some (match pd_period_duration_s q with Some x => x | None => pd end).
Proof.
  intros pd. induction l as [|p [|q r] IH]; intros i x H L; cbn [List.length] in L; [lia|lia|].
  cbn [fill_durations] in H. destruct i as [|i]; cbn [nth_error] in H |- *.
  - injection H as <-. exists p. split; [reflexivity|]. destruct (pd_period_duration_s p) eqn:E; [rewrite E|]; reflexivity.
  - apply IH; [exact H|]. cbn [List.length]. lia.
Qed.

(** *** Counts *)
Lemma count_allowed_iff : forall pph, count_allowed (Z.min pph 60) = true <-> supported pph.
Proof.
  intros pph. unfold count_allowed, allowed_counts, supported.
  rewrite existsb_exists. split.
  - intros (x & Hx & E). apply Z.eqb_eq in E. cbn [In] in Hx.
    destruct (Z_le_gt_dec 60 pph) as [G|G]; [auto|].
    rewrite Z.min_l in E by lia. subst x.
    destruct Hx as [H|[H|Hx]]; [auto|auto|]. right. right. right. split; [lia|].
    repeat (destruct Hx as [H|Hx]; [subst pph; match goal with |- (?q | 60) => exists (60 / q); reflexivity end|]). contradiction.
  - intros H. exists (Z.min pph 60). split; [|apply Z.eqb_refl].
    destruct H as [-> |[-> |[H|(H & k & D)]]]; [left; reflexivity|right; left; reflexivity| |].
    + rewrite Z.min_r by lia. cbn [In]. tauto.
    + rewrite Z.min_l by lia. cbn [In].
      assert (pph = 1 \/ pph = 2 \/ pph = 3 \/ pph = 4 \/ pph = 5 \/ pph = 6 \/ pph = 10 \/ pph = 12 \/ pph = 15
        \/ pph = 20 \/ pph = 30); [|intuition lia].
      assert (K : 1 <= k <= 60) by nia.
      assert (k = 1 \/ k = 2 \/ k = 3 \/ k = 4 \/ k = 5 \/ k = 6 \/ k = 7 \/ k = 8 \/ k = 9 \/ k = 10 \/ (10 < k <= 60)) by lia.
      assert (pph = 1 \/ pph = 2 \/ pph = 3 \/ pph = 4 \/ pph = 5 \/ 5 < pph) by lia.
      intuition (subst; try lia; try nia).
Qed.
Lemma multi_min : forall c n pd, multi c n pd -> Z.min (c_pph c) 60 = n /\ 3600 / n = pd /\ 0 < pd /\ 0 < n.
Proof.
  intros c n pd (Hn & Hp & H).
  assert (D : 3600 / n = pd). { rewrite <- Hp. rewrite Z.mul_comm. apply Z.div_mul. lia. }
  assert (0 < pd) by nia.
  repeat split; try lia.
Qed.

(** *** The whole function for a positive count *)
Lemma generate_multi : forall c sn pto now n pd b mup l,
  multi c n pd -> c_tsbd c = Some b ->
  generate_period_data c sn pto now = Ok (mup, l) ->
  exists ad ys r,
    mapM (one_period c n pd) (zrange ((now - b - c_seg_dur c) / pd) ((now + pd / 2) / pd)) = Ok ys /\
    period_loop c n pd ad (zrange ((now - b - c_seg_dur c) / pd) ((now + pd / 2) / pd)) [] = Ok r /\
    l = fill_durations pd (rev r) /\ map core l = map core ys.
Proof.
  intros c sn pto now n pd b mup l M Hb H.
  destruct (multi_min c n pd M) as (E1 & E2 & Hpd & Hn).
  unfold generate_period_data in H. rewrite E1, E2, Hb in H.
  destruct (negb (count_allowed n)); [discriminate|].
  destruct (if 0 <? c_insert_ad c then py_div n (c_xlink c) else Ok (-1)) as [ad|]; cbn [bind] in H; [|discriminate].
  destruct (Z.eqb_spec n (-1)); [lia|]. destruct (Z.eqb_spec n 0); [lia|].
  destruct (period_loop c n pd ad (zrange ((now - b - c_seg_dur c) / pd) ((now + pd / 2) / pd)) []) as [r|] eqn:L; cbn [bind] in H; [|discriminate].
  injection H as <- <-.
  destruct (period_loop_core _ _ _ _ _ _ _ L) as (ys & Y & C). cbn [map] in C. rewrite app_nil_r in C.
  exists ad, ys, r. do 3 (split; [assumption || reflexivity|]).
  rewrite fill_core, map_rev, C, rev_involutive. reflexivity.
Qed.

Lemma one_period_fields : forall c n pd nr p, one_period c n pd nr = Ok p ->
  0 < c_seg_dur c ->
  pd_id p = ("p" ++ print_Z nr)%string /\ pd_start p = ("PT" ++ print_Z (nr * pd) ++ "S")%string /\
  pd_start_number p = print_Z (nr * pd / c_seg_dur c) /\ pd_pto p = PInt (nr * pd) /\ pd_start_s p = nr * pd /\
  etp_of c n pd nr = Ok (pd_etp p) /\ callback_of c n nr = Ok (pd_callback p).
Proof.
  intros c n pd nr p E Hd. unfold one_period in E.
  unfold py_div in E. destruct (Z.eqb_spec (c_seg_dur c) 0); [lia|]. cbn [bind] in E.
  destruct (etp_of c n pd nr); cbn [bind] in E; [|discriminate].
  destruct (callback_of c n nr); cbn [bind] in E; [|discriminate].
  injection E as <-. cbn. repeat split; reflexivity.
Qed.
Lemma core_eq : forall p q, core p = core q ->
  pd_id p = pd_id q /\ pd_start p = pd_start q /\ pd_start_number p = pd_start_number q /\ pd_pto p = pd_pto q /\
  pd_start_s p = pd_start_s q /\ pd_etp p = pd_etp q /\ pd_callback p = pd_callback q.
Proof. intros p q H. unfold core in H. injection H as ? ? ? ? ? ? ? ?. repeat split; assumption. Qed.

Lemma nth_forall2 : forall {A B} (P : A -> B -> Prop) l m i x,
  Forall2 P l m -> nth_error l i = Some x -> exists y, nth_error m i = Some y /\ P x y.
Proof.
  intros A B P l m i x F. revert i. induction F as [|a b l m H F IH]; intros [|i] E; cbn [nth_error] in *; try discriminate.
  - injection E as <-. eauto.
  - eauto.
Qed.
Lemma forall2_len : forall {A B} (P : A -> B -> Prop) l m, Forall2 P l m -> List.length l = List.length m.
Proof. intros A B P l m F. induction F; cbn; congruence. Qed.

(** The i-th period. *)
Lemma generate_nth : forall c sn pto now n pd b mup l,
  multi c n pd -> c_tsbd c = Some b -> 0 < c_seg_dur c ->
  generate_period_data c sn pto now = Ok (mup, l) ->
  let first := (now - b - c_seg_dur c) / pd in
  List.length l = Z.to_nat ((now + pd / 2) / pd - first + 1) /\
  forall i p, nth_error l i = Some p ->
    let nr := first + Z.of_nat i in
    pd_id p = ("p" ++ print_Z nr)%string /\ pd_start p = ("PT" ++ print_Z (nr * pd) ++ "S")%string /\
    pd_start_number p = print_Z (nr * pd / c_seg_dur c) /\ pd_pto p = PInt (nr * pd) /\ pd_start_s p = nr * pd /\
    etp_of c n pd nr = Ok (pd_etp p) /\ callback_of c n nr = Ok (pd_callback p) /\
    ((S i < List.length l)%nat ->
      pd_period_duration_s p = Some pd \/ exists e, pd_etp p = Some e /\ pd_period_duration_s p = Some e).
Proof.
  intros c sn pto now n pd b mup l M Hb Hd H first.
  destruct (generate_multi _ _ _ _ _ _ _ _ _ M Hb H) as (ad & ys & r & Y & L & -> & C). fold first in Y, L.
  pose proof (mapM_ok _ _ _ Y) as F2.
  assert (Len : List.length (fill_durations pd (rev r)) = Z.to_nat ((now + pd / 2) / pd - first + 1)).
  { rewrite <- (map_length core), C, map_length, <- (forall2_len _ _ _ F2), zrange_length. reflexivity. }
  split; [exact Len|].
  intros i p Hp nr.
  assert (Hi : (i < Z.to_nat ((now + pd / 2) / pd - first + 1))%nat).
  { rewrite <- Len. apply nth_error_Some. congruence. }
  destruct (nth_forall2 _ _ _ _ _ F2 (zrange_nth _ _ _ Hi)) as (y & Hy & Ey). fold nr in Ey.
  assert (K : core p = core y).
  { pose proof (map_nth_error core _ _ Hp) as A. pose proof (map_nth_error core _ _ Hy) as B.
    rewrite C in A. congruence. }
  destruct (core_eq _ _ K) as (-> & -> & -> & -> & -> & Ketp & ->).
  destruct (one_period_fields _ _ _ _ _ Ey Hd) as (F_1 & F_2 & F_3 & F_4 & F_5 & F_6 & F_7).
  rewrite Ketp. do 7 (split; [assumption|]).
  intros Hlast. rewrite fill_length in Hlast.
  destruct (fill_nth _ _ _ _ Hp Hlast) as (q & Hq & ->).
  assert (Kq : core q = core y).
  { pose proof (map_nth_error core _ _ Hq) as A. pose proof (map_nth_error core _ _ Hy) as B.
    rewrite fill_core in C. rewrite C in A. congruence. }
  apply core_eq in Kq. destruct Kq as (_ & _ & _ & _ & _ & Kq & _).
  pose proof (period_loop_durations _ _ _ _ _ _ _ L (Forall_nil _)) as D.
  rewrite Forall_forall in D. specialize (D q). rewrite <- in_rev in D || idtac.
  assert (Hin : In q r) by (apply in_rev; eapply nth_error_In; eassumption).
  specialize (D Hin). destruct D as [D|D]; rewrite D.
  - rewrite Kq. destruct (pd_etp y) as [e|]; [right; eauto|left; reflexivity].
  - left. reflexivity.
Qed.

(** *** Option checks *)
Lemma quotient_ok : forall n m, 0 < m -> (m | n) -> quotient_or_raise n m = Ok (n / m).
Proof.
  intros n m Hm D. unfold quotient_or_raise.
  destruct (Z.eqb_spec (n mod m) 0) as [E|E]; [reflexivity|].
  exfalso. apply E. apply Z.mod_divide; [lia|assumption].
Qed.
Lemma quotient_inv : forall n m k, 0 < m -> quotient_or_raise n m = Ok k -> n = k * m.
Proof.
  intros n m k Hm H. unfold quotient_or_raise in H. destruct (Z.eqb_spec (n mod m) 0) as [E|E]; [|discriminate].
  injection H as <-. apply Z_div_exact_full_2 in E; lia.
Qed.
Lemma quotient_bad : forall n m, 0 < m -> ~ (m | n) -> quotient_or_raise n m = Err "Exception".
Proof.
  intros n m Hm D. unfold quotient_or_raise. destruct (Z.eqb_spec (n mod m) 0) as [E|E]; [|reflexivity].
  exfalso. apply D. apply Z.mod_divide; [lia|assumption].
Qed.
Lemma selected_test : forall n m k nr, 0 < n -> 0 < m -> n = k * Z.min m 60 ->
  (selected n m nr <-> nr mod k = 0).
Proof.
  intros n m k nr Hn Hm E. assert (0 < Z.min m 60) by lia. assert (Hk : 0 < k) by nia.
  rewrite Z.mod_divide by lia. unfold selected. split.
  - intros (_ & k' & E' & D). assert (k' = k) by nia. subst k'. exact D.
  - intros D. split; [assumption|]. exists k. auto.
Qed.
