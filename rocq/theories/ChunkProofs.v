(** Lemmas about chunking: the partition. *)
From Coq Require Import ZifyBool ZifyNat.
From Verif Require Import Base BaseProofs BytesModel BytesProofs BoxSpec ChunkModel ChunkSpec.
Open Scope Z_scope.

Lemma total_app : forall A (dur : A -> Z) a b, total dur (a ++ b) = total dur a + total dur b.
Proof. intros A dur a b. induction a as [|x a IH]; cbn [app total]; [lia|]. rewrite IH. lia. Qed.
Lemma concat_app' : forall A (a b : list (list A)), List.concat (a ++ b) = List.concat a ++ List.concat b.
Proof. intros. apply concat_app. Qed.

(** The loop for samples of any kind. *)
Section Loop.
Context {A : Type}.
Variable dur : A -> Z.
Notation tot := (total dur).
Fixpoint gloop (samples : list A) (duration d0 d1 : Z) (part : list A) : list (list A) :=
  match samples with
  | [] => match part with [] => [] | _ => [part] end
  | s :: rest =>
      if d1 <=? d0
      then part :: gloop rest duration (d0 + dur s) (d1 + duration) [s]
      else gloop rest duration (d0 + dur s) d1 (part ++ [s])
  end.
Lemma loop_concat : forall l d d0 d1 part, List.concat (gloop l d d0 d1 part) = part ++ l.
Proof.
  intros l. induction l as [|s l IH]; intros d d0 d1 part; cbn [gloop].
  - destruct part as [|x p]; [reflexivity|]. cbn [List.concat]. rewrite !app_nil_r. reflexivity.
  - destruct (d1 <=? d0).
    + cbn [List.concat]. rewrite IH. reflexivity.
    + rewrite IH, <- app_assoc. reflexivity.
Qed.
Lemma loop_some : forall l d d0 d1 part, part <> [] \/ d0 < d1 -> Forall (fun p => p <> []) (gloop l d d0 d1 part).
Proof.
  intros l. induction l as [|s l IH]; intros d d0 d1 part H; cbn [gloop].
  - destruct part as [|x p]; repeat constructor; discriminate.
  - destruct (d1 <=? d0) eqn:E.
    + constructor; [destruct H as [H|H]; [exact H|lia]|]. apply IH. left. discriminate.
    + apply IH. left. destruct part; discriminate.
Qed.
Lemma loop_not_nil : forall l d d0 d1 part, gloop l d d0 d1 part = [] -> l = [] /\ part = [].
Proof.
  intros l. induction l as [|s l IH]; intros d d0 d1 part H; cbn [gloop] in H.
  - destruct part; [split; reflexivity|discriminate].
  - destruct (d1 <=? d0); [discriminate|]. apply IH in H. destruct H as (_ & H). destruct part; discriminate.
Qed.
Lemma loop_long : forall l d d0 d1 base part a b, d0 = base + tot part ->
  gloop l d d0 d1 part = a ++ b -> a <> [] -> b <> [] ->
  d1 + (Z.of_nat (List.length a) - 1) * d <= base + tot (List.concat a).
Proof.
  intros l. induction l as [|s l IH]; intros d d0 d1 base part a b B E NA NB; cbn [gloop] in E.
  - destruct part as [|x p]; [destruct a; [contradiction|discriminate]|].
    destruct a as [|y a]; [contradiction|]. cbn [app] in E. injection E as _ E. destruct a; [|discriminate]. cbn [app] in E. subst b. contradiction.
  - destruct (d1 <=? d0) eqn:C.
    + destruct a as [|y a]; [contradiction|]. cbn [app] in E. injection E as <- E.
      destruct a as [|z a].
      * cbn [List.concat List.length]. rewrite app_nil_r. lia.
      * apply (IH d (d0 + dur s) (d1 + d) d0 [s]) in E; [|cbn [total]; lia|discriminate|exact NB].
        cbn [List.length List.concat] in E |- *. rewrite total_app in E |- *. rewrite total_app. lia.
    + apply (IH d (d0 + dur s) d1 base (part ++ [s])) in E; [exact E| |exact NA|exact NB].
      rewrite total_app. cbn [total]. lia.
Qed.
Lemma loop_starts : forall d k s post, 0 < d -> forall pre d0 d1 m part,
  d1 = m * d -> d1 - d < k * d -> k * d <= d0 + tot pre ->
  (forall p q, pre = p ++ q -> q <> [] -> d0 + tot p < k * d) ->
  exists a b, gloop (pre ++ s :: post) d d0 d1 part = a ++ b /\ List.concat a = part ++ pre /\ List.concat b = s :: post.
Proof.
  intros d k s post D pre. induction pre as [|x pre IH]; intros d0 d1 m part M L K AA; cbn [app gloop].
  - cbn [total] in K. assert (m <= k) by nia. replace (d1 <=? d0) with true by nia.
    exists [part], (gloop post d (d0 + dur s) (d1 + d) [s]). split; [reflexivity|]. split; [cbn; rewrite !app_nil_r; reflexivity|].
    rewrite loop_concat. reflexivity.
  - assert (L0 : d0 < k * d) by (specialize (AA [] (x :: pre) eq_refl ltac:(discriminate)); cbn [total] in AA; lia).
    cbn [total] in K.
    assert (AA' : forall p q, pre = p ++ q -> q <> [] -> d0 + dur x + tot p < k * d).
    { intros p q E N. specialize (AA (x :: p) q). rewrite E in AA. specialize (AA eq_refl N). cbn [total] in AA. lia. }
    destruct (d1 <=? d0) eqn:C.
    + destruct (IH (d0 + dur x) (d1 + d) (m + 1) [x]) as (a & b & E1 & E2 & E3); [lia|lia|lia|exact AA'|].
      exists (part :: a), b. rewrite E1. split; [reflexivity|]. split; [cbn [List.concat]; rewrite E2; reflexivity|exact E3].
    + destruct (IH (d0 + dur x) d1 m (part ++ [x])) as (a & b & E1 & E2 & E3); [exact M|exact L|lia|exact AA'|].
      exists a, b. rewrite E1. split; [reflexivity|]. split; [rewrite E2, <- app_assoc; reflexivity|exact E3].
Qed.
Lemma loop_window : forall d, 0 < d -> forall l d0 d1 base part, (forall s, In s l -> 0 <= dur s <= d) ->
  d0 = base + tot part -> d0 < d1 + d ->
  (forall x s y, part = x ++ s :: y -> d1 - d <= base + tot x < d1) ->
  (part = [] -> d1 - d <= d0) -> (part <> [] -> d1 - d <= d0) ->
  forall a p b x s y, gloop l d d0 d1 part = a ++ p :: b -> p = x ++ s :: y ->
  d1 - d + Z.of_nat (List.length a) * d <= base + tot (List.concat a ++ x) < d1 + Z.of_nat (List.length a) * d.
Proof.
  intros d D l. induction l as [|s0 l IH]; intros d0 d1 base part S B W P Q1 Q2 a p b x s y E EP; cbn [gloop] in E.
  - destruct part as [|z part]; [destruct a; discriminate|].
    destruct a as [|? a]; [|destruct a; discriminate]. cbn [app] in E. injection E as E <-. rewrite EP in E.
    cbn [List.length List.concat app]. specialize (P x s y E). lia.
  - assert (Sd := S s0 (or_introl eq_refl)). assert (S' : forall s, In s l -> 0 <= dur s <= d) by (intros; apply S; right; assumption).
    assert (Q : d1 - d <= d0) by (destruct part; [apply Q1; reflexivity|apply Q2; discriminate]).
    destruct (d1 <=? d0) eqn:C.
    + destruct a as [|z a].
      * cbn [app] in E. injection E as E _. rewrite EP in E. cbn [List.length List.concat app]. specialize (P x s y E). lia.
      * cbn [app] in E. injection E as <- E.
        apply (IH (d0 + dur s0) (d1 + d) d0 [s0]) with (x := x) (s := s) (y := y) in E; [|exact S'|cbn [total]; lia|lia| | | |exact EP].
        -- cbn [List.length List.concat]. rewrite <- app_assoc, total_app. lia.
        -- intros u v w F. destruct u as [|u0 u]; [cbn [total]; lia|]. destruct u; discriminate.
        -- discriminate.
        -- intros _. lia.
    + apply (IH (d0 + dur s0) d1 base (part ++ [s0])) with (x := x) (s := s) (y := y) in E; [exact E|exact S'| |lia| | | |exact EP].
      * rewrite total_app. cbn [total]. lia.
      * intros u v w F. destruct w as [|w0 w] using rev_ind.
        -- apply app_inj_tail in F. destruct F as (<- & _). lia.
        -- rewrite app_comm_cons, app_assoc in F. apply app_inj_tail in F. destruct F as (F & _). apply (P u v w F).
      * intros F. destruct part; discriminate.
      * intros _. lia.
Qed.
Lemma gloop_chunking : forall l d, 0 < d -> chunking dur d l (gloop l d 0 d []).
Proof.
  intros l d D. constructor.
  - apply loop_concat.
  - apply loop_some. right. exact D.
  - intros a b E NA NB. apply (loop_long l d 0 d 0 []) in E; [lia|reflexivity|exact NA|exact NB].
  - intros k before s after K -> T AA.
    destruct (loop_starts d k s after D before 0 d 1 []) as (a & b & E1 & E2 & E3); [lia|nia|lia|exact AA|].
    exists a, b. split; [exact E1|]. split; [exact E2|exact E3].
  - intros S a p b x s y E EP.
    assert (H := loop_window d D l 0 d 0 [] S). specialize (H ltac:(reflexivity) ltac:(lia)).
    assert (G := H ltac:(intros u v w F; destruct u; discriminate) ltac:(intros _; lia) ltac:(intros _; lia) a p b x s y E EP). lia.
Qed.
End Loop.
Lemma loop_rel : forall A B (R : A -> B -> Prop) (da : A -> Z) (db : B -> Z), (forall a b, R a b -> da a = db b) ->
  forall l l', Forall2 R l l' -> forall d d0 d1 p p', Forall2 R p p' -> Forall2 (Forall2 R) (gloop da l d d0 d1 p) (gloop db l' d d0 d1 p').
Proof.
  intros A B R da db D l l' F. induction F as [|a b l l' Rab F IH]; intros d d0 d1 p p' P; cbn [gloop].
  - destruct P; repeat constructor; assumption.
  - rewrite (D a b Rab). destruct (d1 <=? d0).
    + constructor; [exact P|]. apply IH. repeat constructor. exact Rab.
    + apply IH. apply Forall2_app; [exact P|]. repeat constructor. exact Rab.
Qed.
Lemma partition_gloop : forall l d d0 d1 p, partition_loop l d d0 d1 p = gloop s_dur l d d0 d1 p.
Proof. intros l. induction l as [|s l IH]; intros; cbn [partition_loop gloop]; [reflexivity|]. rewrite !IH. reflexivity. Qed.
Lemma partition_chunking : forall l d, 0 < d -> chunking s_dur d l (partition l d).
Proof. intros. unfold partition. rewrite partition_gloop. apply gloop_chunking. assumption. Qed.
