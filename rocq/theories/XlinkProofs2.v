(** The loop over the periods. *)
From Coq Require Import ZifyBool ZifyNat Znumtheory.
From Verif Require Import Base BaseProofs ConfigModel StrModel MpdModel XlinkModel XlinkSpec XlinkProofs.
Local Open Scope string_scope.
Open Scope Z_scope.

Ltac sassoc := repeat (progress (rewrite ?sapp_assoc; cbn [append])).
(** ** Ids *)
Definition idc (a : ascii) : bool := Ascii.eqb a "-" || match digit_val a with Some _ => true | None => false end.
Fixpoint all_idc (s : string) : bool := match s with EmptyString => true | String a r => idc a && all_idc r end.
Lemma digits_idc : forall s, all_digits s = true -> all_idc s = true.
Proof.
  intros s. induction s as [|a s IH]; [reflexivity|]. cbn [all_digits all_idc]. unfold idc.
  destruct (digit_val a); [|discriminate]. intros H. rewrite orb_true_r, IH by exact H. reflexivity.
Qed.
Lemma print_idc : forall z, all_idc (print_Z z) = true.
Proof.
  intros z. unfold print_Z. destruct (z <? 0) eqn:E.
  - cbn [all_idc]. change (idc "-") with true. cbn [andb]. apply digits_idc. apply print_nat_spec. lia.
  - apply digits_idc. apply print_nat_spec. lia.
Qed.
Lemma idc_has : forall c s, all_idc s = true -> idc c = false -> has c s = false.
Proof.
  intros c s. induction s as [|a s IH]; intros A C; [reflexivity|]. cbn [all_idc] in A. apply andb_prop in A. destruct A as (A & B).
  cbn [has]. destruct (Ascii.eqb_spec c a); [congruence|]. apply IH; assumption.
Qed.
Lemma print_first : forall z, exists a r, print_Z z = String a r /\ idc a = true.
Proof.
  intros z. pose proof (print_idc z) as I. destruct (print_Z z) as [|a r] eqn:E.
  - pose proof (py_int_print z) as P. rewrite E in P. vm_compute in P. discriminate.
  - exists a, r. split; [reflexivity|]. cbn [all_idc] in I. apply andb_prop in I. tauto.
Qed.
(** Text in which no p is followed by a digit or a minus sign contains no id. *)
Fixpoint idlike (s : string) : bool :=
  match s with
  | EmptyString => false
  | String a r => (Ascii.eqb a "p" && match r with String b _ => idc b | EmptyString => false end) || idlike r
  end.
Lemma idlike_lacks : forall s p, idlike s = false -> lacks s (pt_id p).
Proof.
  intros s p H (a & b & ->). destruct (print_first (pt_nr p)) as (x & r & E & I). unfold pt_id in H. rewrite E in H. clear E.
  induction a as [|y a IH].
  - cbn [append idlike] in H. change (Ascii.eqb "p" "p") with true in H. rewrite I in H. discriminate.
  - change (String y a ++ ("p" ++ String x r) ++ b) with (String y (a ++ ("p" ++ String x r) ++ b)) in H. cbn [idlike] in H. apply orb_false_iff in H. tauto.
Qed.
Lemma id_inj : forall p q, pt_id p = pt_id q -> pt_nr p = pt_nr q.
Proof. intros p q E. unfold pt_id in E. injection E as E. apply print_Z_inj. exact E. Qed.
Lemma id_has : forall c p, idc c = false -> c <> "p"%char -> has c (pt_id p) = false.
Proof.
  intros c p I N. unfold pt_id. cbn [append has]. destruct (Ascii.eqb_spec c "p"); [contradiction|]. cbn [orb].
  apply idc_has; [apply print_idc|exact I].
Qed.
Lemma lacks_mid : forall p d s1 s2, has d p = false -> p <> "" -> lacks s1 p -> lacks s2 p -> lacks (s1 ++ String d s2) p.
Proof.
  intros [|c p] d s1 s2 H N L1 L2; [congruence|]. cbn [has] in H. apply orb_false_iff in H. destruct H as (H1 & H).
  apply lacks_app_head; [exact H|exact L1|]. apply lacks_cons; [|exact L2]. intros ->. rewrite Ascii.eqb_refl in H1. discriminate.
Qed.
Lemma id_nonempty : forall p, pt_id p <> "".
Proof. discriminate. Qed.
Lemma id_mid : forall p d s1 s2, idc d = false -> d <> "p"%char -> lacks s1 (pt_id p) -> lacks s2 (pt_id p) -> lacks (s1 ++ String d s2) (pt_id p).
Proof. intros p d s1 s2 I N. apply lacks_mid; [apply id_has; assumption|apply id_nonempty]. Qed.
Lemma lacks_nil : forall p, p <> "" -> lacks "" p.
Proof. intros p N (a & b & E). destruct a; [|discriminate]. destruct p; [congruence|discriminate]. Qed.

(** ** Pieces of the document *)
(** the start tag without its last character *)
Definition core (p : ptext) : string := "<Period id=""" ++ pt_id p ++ """" ++ pt_attrs p.
Lemma tag_core : forall p, pt_tag (pt_attrs p) p = core p ++ ">".
Proof. intros p. unfold pt_tag, core. rewrite !sapp_assoc. reflexivity. Qed.
Lemma text_core : forall p, pt_text p = core p ++ String ">" (pt_body p ++ "</Period>").
Proof. intros p. unfold pt_text. rewrite tag_core, sapp_assoc. reflexivity. Qed.
Definition mark (p : ptext) : string := "Period id=""" ++ pt_id p ++ """".
Lemma core_mark : forall p, core p = String "<" (mark p) ++ pt_attrs p.
Proof. intros p. unfold core, mark. cbn [append]. rewrite sapp_assoc. reflexivity. Qed.
Lemma mark_has : forall p, has "<" (mark p) = false.
Proof. intros p. unfold mark. rewrite !has_app, id_has by (reflexivity || discriminate). reflexivity. Qed.
Lemma core_gt : forall p, pt_fine p -> has ">" (core p) = false.
Proof.
  intros p (_ & G & _). unfold core. rewrite !has_app, id_has by (reflexivity || discriminate). rewrite (lacks_char _ _ G). reflexivity.
Qed.
Lemma core_lt : forall p, pt_fine p -> exists r, core p = String "<" r /\ has "<" r = false.
Proof.
  intros p (G & _). exists (mark p ++ pt_attrs p). rewrite core_mark. split; [reflexivity|].
  rewrite has_app, mark_has, (lacks_char _ _ G). reflexivity.
Qed.
Lemma text_start : forall p, exists r, pt_text p = String "<" r.
Proof. intros p. eexists. reflexivity. Qed.

(** ** Finding *)
Lemma find_id : forall D p X, lacks D (pt_id p) -> py_find (pt_id p) (D ++ pt_text p ++ X) = slen D + 12.
Proof.
  intros D p X L. unfold py_find.
  assert (E : pt_text p ++ X = String "<" ("Period id=""" ++ pt_id p ++ (""""  ++ pt_attrs p ++ ">" ++ pt_body p ++ "</Period>" ++ X))).
  { unfold pt_text, pt_tag. rewrite !sapp_assoc. reflexivity. }
  rewrite E. change (pt_id p) with (String "p" (print_Z (pt_nr p))). change (pt_id p) with (String "p" (print_Z (pt_nr p))) in L.
  rewrite find_skip; [|apply idc_has; [apply print_idc|reflexivity]|exact L].
  change (String "<" ("Period id=""" ++ String "p" (print_Z (pt_nr p)) ++ (""""  ++ pt_attrs p ++ ">" ++ pt_body p ++ "</Period>" ++ X)))
    with ("<Period id=""" ++ String "p" (print_Z (pt_nr p)) ++ (""""  ++ pt_attrs p ++ ">" ++ pt_body p ++ "</Period>" ++ X)).
  rewrite find_nohead by reflexivity. rewrite find_here. cbn [option_map]. unfold slen. cbn [String.length]. lia.
Qed.
Lemma find_end : forall p X, pt_fine p -> find "</Period>" (pt_text p ++ X) = Some (String.length (pt_text p) - 9)%nat.
Proof.
  intros p X F. destruct (core_lt p F) as (r & E & H). destruct F as (_ & _ & _ & _ & B & _).
  rewrite text_core, E. cbn [append]. 
  change (find "</Period>" (String "<" ((r ++ String ">" (pt_body p ++ "</Period>")) ++ X)))
    with (if starts_with "</Period>" (String "<" ((r ++ String ">" (pt_body p ++ "</Period>")) ++ X)) then Some 0%nat
          else option_map S (find "</Period>" ((r ++ String ">" (pt_body p ++ "</Period>")) ++ X))).
  assert (S0 : starts_with "</Period>" (String "<" ((r ++ String ">" (pt_body p ++ "</Period>")) ++ X)) = false).
  { destruct r as [|x r]; [discriminate E|]. cbn [append starts_with]. unfold core in E. injection E as <- _. reflexivity. }
  rewrite S0. clear S0.
  assert (A : (r ++ String ">" (pt_body p ++ "</Period>")) ++ X = (r ++ ">") ++ pt_body p ++ String "<" ("/Period>" ++ X))
    by (sassoc; reflexivity).
  rewrite A, find_nohead by (rewrite has_app, H; reflexivity). rewrite find_skip by (reflexivity || exact B).
  change (String "<" ("/Period>" ++ X)) with ("</Period>" ++ X). rewrite find_here. cbn [option_map]. f_equal.
  cbn [String.length]. rewrite !len_app. cbn [String.length]. rewrite len_app. cbn [String.length]. lia.
Qed.
Lemma text_len : forall p, (9 <= String.length (pt_text p))%nat.
Proof. intros p. unfold pt_text. rewrite !len_app. cbn [String.length].
  generalize (String.length (pt_tag (pt_attrs p) p)), (String.length (pt_body p)). intros a b. lia. Qed.
Lemma find_gt : forall p X, pt_fine p -> find ">" (pt_text p ++ X) = Some (String.length (core p)).
Proof.
  intros p X F. rewrite text_core, sapp_assoc, find_nohead by (apply core_gt; exact F).
  change (String ">" (pt_body p ++ "</Period>") ++ X) with (">" ++ ((pt_body p ++ "</Period>") ++ X)).
  rewrite find_here. cbn [option_map]. f_equal. lia.
Qed.
Lemma positions : forall D p X, pt_fine p -> lacks D (pt_id p) ->
  let s := D ++ pt_text p ++ X in
  py_find (pt_id p) s - 12 = slen D /\ py_find_from "</Period>" s (slen D) + 9 = slen D + slen (pt_text p)
  /\ str_slice (slen D) (slen D + slen (pt_text p)) s = pt_text p
  /\ insert_asset_identifier s (slen D) = D ++ pt_asset p ++ X.
Proof.
  intros D p X F L s. subst s. rewrite find_id by exact L. split; [lia|].
  rewrite (find_from_app _ _ _ _ (find_end p X F)). pose proof (text_len p). split; [unfold slen; lia|].
  split; [apply slice_mid|]. unfold insert_asset_identifier. rewrite (find_from_app _ _ _ _ (find_gt p X F)).
  assert (E : D ++ pt_text p ++ X = (D ++ core p ++ ">") ++ (pt_body p ++ "</Period>" ++ X))
    by (rewrite text_core; sassoc; reflexivity).
  rewrite E. replace (slen D + Z.of_nat (String.length (core p)) + 1) with (slen (D ++ core p ++ ">")) by (rewrite !slen_app; unfold slen; cbn [String.length]; lia).
  rewrite slice_pre, slice_post. unfold pt_asset. rewrite tag_core, !sapp_assoc. reflexivity.
Qed.
