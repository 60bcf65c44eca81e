(** What a written element tree looks like as text. *)
From Coq Require Import ZifyBool ZifyNat Znumtheory.
From Verif Require Import Base BaseProofs ConfigModel StrModel MpdModel XlinkModel XlinkSpec XlinkProofs XlinkProofs2 XlinkProofs3 XlinkProofs4.
Local Open Scope string_scope.
Open Scope Z_scope.

Section xml_ind.
  Variable P : xml -> Prop.
  Hypothesis H : forall t a s k, Forall P k -> P (Elem t a s k).
  Fixpoint xml_ind2 (x : xml) : P x :=
    match x with
    | Elem t a s k =>
        H t a s k ((fix go (l : list xml) : Forall P l :=
          match l with [] => Forall_nil P | y :: r => Forall_cons y (xml_ind2 y) (go r) end) k)
    end.
End xml_ind.
Lemma all_kids : forall Q k, fold_right (fun y r => all_elems Q y /\ r) True k <-> Forall (all_elems Q) k.
Proof.
  intros Q k. induction k as [|y k IH]; cbn [fold_right]; split; intros H; auto.
  - destruct H as (H1 & H2). constructor; [exact H1|apply IH; exact H2].
  - inversion H; subst. split; [assumption|apply IH; assumption].
Qed.

(** ** Characters *)
Lemma escape_lt : forall q s, has "<" (escape q s) = false.
Proof.
  intros q s. induction s as [|a s IH]; [reflexivity|]. cbn [escape]. rewrite has_app, IH, orb_false_r.
  destruct (Ascii.eqb a "&"); [reflexivity|]. destruct (Ascii.eqb_spec a "<"); [reflexivity|].
  destruct (Ascii.eqb a ">"); [reflexivity|]. destruct (q && Ascii.eqb a """"); [reflexivity|].
  destruct (q && Ascii.eqb a "010"); [reflexivity|]. cbn [has]. destruct (Ascii.eqb_spec "<" a); [congruence|reflexivity].
Qed.
Lemma escape_gt : forall q s, has ">" (escape q s) = false.
Proof.
  intros q s. induction s as [|a s IH]; [reflexivity|]. cbn [escape]. rewrite has_app, IH, orb_false_r.
  destruct (Ascii.eqb a "&"); [reflexivity|]. destruct (Ascii.eqb_spec a "<"); [reflexivity|].
  destruct (Ascii.eqb_spec a ">"); [reflexivity|]. destruct (q && Ascii.eqb a """"); [reflexivity|].
  destruct (q && Ascii.eqb a "010"); [reflexivity|]. cbn [has]. destruct (Ascii.eqb_spec ">" a); [congruence|reflexivity].
Qed.
Lemma attrs_free : forall c a, Forall (fun kv => plain_name (fst kv)) a -> c = "<"%char \/ c = ">"%char -> has c (write_attrs a) = false.
Proof.
  intros c a F C. induction a as [|(k, v) a IH]; [destruct C as [-> | ->]; reflexivity|].
  inversion F as [|? ? (K1 & K2 & _) Fa]; subst. cbn [write_attrs fold_right] in *. change (fold_right _ "" a) with (write_attrs a).
  unfold write_attr. cbn [fst snd] in *. rewrite !has_app. rewrite IH by exact Fa.
  destruct C as [-> | ->]; [rewrite escape_lt, (lacks_char _ _ K1)|rewrite escape_gt, (lacks_char _ _ K2)]; reflexivity.
Qed.
Lemma attrs_shape : forall a, write_attrs a = "" \/ exists r, write_attrs a = String " " r.
Proof. intros [|kv a]; [left; reflexivity|right; eexists; reflexivity]. Qed.
Lemma attrs_end : forall a, write_attrs a = "" \/ exists r, write_attrs a = r ++ """".
Proof.
  intros a. induction a as [|kv a IH]; [left; reflexivity|right]. cbn [write_attrs fold_right]. change (fold_right _ "" a) with (write_attrs a).
  destruct IH as [-> |(r & ->)].
  - rewrite sapp_nil. unfold write_attr. exists (" " ++ fst kv ++ "=""" ++ escape true (snd kv)). rewrite !sapp_assoc. reflexivity.
  - exists (write_attr kv ++ r). rewrite sapp_assoc. reflexivity.
Qed.

(** ** Tags *)
Lemma no_meet : forall c d a b u v, c <> d -> has c b = false -> has d a = false -> a ++ String c u = b ++ String d v -> False.
Proof.
  intros c d a. induction a as [|x a IH]; intros b u v N B A E.
  - destruct b as [|y b]; cbn [append] in E; injection E as E1 E2; [congruence|]. subst y. cbn [has] in B. rewrite Ascii.eqb_refl in B. discriminate.
  - destruct b as [|y b]; cbn [append] in E; injection E as E1 E2.
    + subst x. cbn [has] in A. rewrite Ascii.eqb_refl in A. discriminate.
    + cbn [has] in A, B. apply orb_false_iff in A, B. apply (IH b u v N); tauto.
Qed.
(** a pattern after the opening bracket that tells elements called [T] from others *)
Definition guard (T w : string) : Prop :=
  has "<" w = false /\
  forall t, plain_name t -> t <> T ->
  (forall Y d, d = " "%char \/ d = ">"%char -> starts_with w (t ++ String d Y) = false)
  /\ (forall Y, starts_with w (String "/" (t ++ String ">" Y)) = false).
Lemma false_starts : forall w s, (forall b, s = w ++ b -> False) -> starts_with w s = false.
Proof. intros w s H. destruct (starts_with w s) eqn:E; [|reflexivity]. apply starts_exists in E. destruct E as (b & E). elim (H b E). Qed.
Lemma guard_open : forall T d0, plain_name T -> d0 = " "%char \/ d0 = ">"%char -> guard T (T ++ String d0 "").
Proof.
  intros T d0 (P1 & P2 & P3 & P4) D0. apply lacks_char in P1, P2, P3, P4. split.
  { rewrite has_app, P1. destruct D0 as [-> | ->]; reflexivity. }
  intros t (Q1 & Q2 & Q3 & Q4) N. apply lacks_char in Q1, Q2, Q3, Q4. split.
  - intros Y d D. apply false_starts. intros b E. rewrite sapp_assoc in E. cbn [append] in E.
    destruct (Ascii.eqb_spec d d0) as [->|ND].
    + apply N. apply (quote_split d0 t T Y b); [destruct D0 as [-> | ->]; assumption|destruct D0 as [-> | ->]; assumption|exact E].
    + apply (no_meet d d0 t T Y b ND); [destruct D as [-> | ->]; assumption|destruct D0 as [-> | ->]; assumption|exact E].
  - intros Y. apply false_starts. intros b E. rewrite sapp_assoc in E. cbn [append] in E.
    apply (no_meet "/" d0 "" T (t ++ String ">" Y) b); [destruct D0 as [-> | ->]; discriminate|exact P3|reflexivity|exact E].
Qed.
Lemma guard_close : forall T, plain_name T -> guard T (String "/" (T ++ ">")).
Proof.
  intros T (P1 & P2 & P3 & P4). apply lacks_char in P1, P2, P3, P4. split.
  { cbn [has]. rewrite has_app, P1. reflexivity. }
  intros t (Q1 & Q2 & Q3 & Q4) N. apply lacks_char in Q1, Q2, Q3, Q4. split.
  - intros Y d D. apply false_starts. intros b E. cbn [append] in E.
    apply (no_meet d "/" t "" Y ((T ++ ">") ++ b)); [destruct D as [-> | ->]; discriminate|reflexivity|exact Q3|exact E].
  - intros Y. apply false_starts. intros b E. cbn [append] in E. injection E as E. rewrite sapp_assoc in E. cbn [append] in E.
    apply N. apply (quote_split ">"%char t T Y b); assumption.
Qed.
Lemma period_plain : plain_name "Period". Proof. repeat split; apply find_none; reflexivity. Qed.
Lemma base_plain : plain_name "BaseURL". Proof. repeat split; apply find_none; reflexivity. Qed.

Lemma elem_rest : forall a (empty : bool) X, exists d R, (d = " "%char \/ d = ">"%char) /\
  write_attrs a ++ (if empty then " />" else ">" ++ X) = String d R.
Proof.
  intros a empty X. destruct (attrs_shape a) as [-> |(r & ->)].
  - destruct empty; [exists " "%char, "/>"; split; [left|]; reflexivity|exists ">"%char, X; split; [right|]; reflexivity].
  - exists " "%char. eexists. split; [left; reflexivity|]. reflexivity.
Qed.
Lemma if_app : forall (b : bool) (x y z : string), (if b then x else y) ++ z = if b then x ++ z else y ++ z.
Proof. intros [] x y z; reflexivity. Qed.
Lemma lacks_kids : forall p k, has "<" p = false -> Forall (fun y => lacks (write_xml y) (String "<" p)) k -> lacks (write_kids k) (String "<" p).
Proof.
  intros p k H F. induction k as [|y k IH]; [apply lacks_nil; discriminate|]. inversion F as [|? ? F1 F2]; subst.
  cbn [write_kids fold_right]. change (fold_right _ "" k) with (write_kids k). specialize (IH F2).
  destruct k as [|z k]; [cbn [write_kids fold_right]; rewrite sapp_nil; exact F1|].
  assert (E : exists r, write_kids (z :: k) = String "<" r) by (destruct z; eexists; reflexivity).
  destruct E as (r & E). rewrite E in *. apply lacks_app_head; assumption.
Qed.
Lemma write_lacks : forall T w x, guard T w -> names_plain x -> nameless T x -> lacks (write_xml x) (String "<" w).
Proof.
  intros T w x (G1 & G2). induction x as [t a s k IH] using xml_ind2. intros (NP & NK) (TN & TK).
  apply all_kids in NK, TK. destruct NP as (NT & NA). destruct (G2 t NT TN) as (O & C).
  assert (K : lacks (write_kids k) (String "<" w)).
  { apply lacks_kids; [exact G1|]. rewrite Forall_forall in *. intros y Y. apply IH; [exact Y|exact (NK y Y)|exact (TK y Y)]. }
  pose proof NT as (N1 & N2 & N3 & N4). apply lacks_char in N1, N2, N3, N4.
  cbn [write_xml]. change (fold_right _ "" k) with (write_kids k). unfold write_elem. rewrite sapp_assoc. cbn [append].
  set (em := (s =? "")%string && match k with [] => true | _ => false end).
  destruct (elem_rest a em (escape false s ++ write_kids k ++ "</" ++ t ++ ">")) as (d & R & D & E).
  apply lacks_step.
  - cbn [starts_with]. change (Ascii.eqb "<" "<") with true. cbn [andb].
    assert (E' : write_attrs a ++ (if em then " />" else String ">" (escape false s ++ write_kids k ++ "</" ++ t ++ ">")) = String d R) by exact E.
    cbn [append] in E'. rewrite E'. apply O. exact D.
  - rewrite <- sapp_assoc. apply lacks_nohead; [rewrite has_app, N1, attrs_free by auto; reflexivity|].
    destruct em; [apply (lacks_nohead "<" w " />" ""); [reflexivity|apply lacks_nil; discriminate]|].
    change (lacks ((">" ++ escape false s ++ write_kids k ++ String "<" (String "/" (t ++ ">")))) (String "<" w)).
    apply lacks_nohead; [reflexivity|]. apply lacks_nohead; [apply escape_lt|].
    apply lacks_app_head; [exact G1|exact K|]. apply lacks_step.
    + cbn [starts_with]. change (Ascii.eqb "<" "<") with true. cbn [andb]. exact (C "").
    + rewrite <- (sapp_nil (String "/" (t ++ ">"))). apply lacks_nohead; [|apply lacks_nil; discriminate]. cbn [has]. rewrite has_app, N1. reflexivity.
Qed.
