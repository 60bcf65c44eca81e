(** Statements about finding boxes by paths with attribute criteria (C91). *)
From Verif Require Import Base BaseProofs BytesModel BytesProofs CritModel CritSpec CritProofs.
Open Scope Z_scope.

(** A film with two tracks, one with id 1, one with id 2. *)
Definition trak_type : bytes := [116; 114; 97; 107].
Definition tkhd_type : bytes := [116; 107; 104; 100].
Definition id_name : bytes := [116; 114; 97; 99; 107; 95; 105; 100].
Definition ex_head (id : Z) : obj := Obj tkhd_type [(id_name, [48 + id])] [].
Definition ex_track (id : Z) : obj := Obj trak_type [] [ex_head id].
Definition ex_movie : obj := Obj [109; 111; 111; 118] [] [ex_track 1; ex_track 2].
Definition ex_path : list criterion := [Plain trak_type; With tkhd_type id_name [50]].
Lemma ex_ok : Forall crit_ok ex_path.
Proof.
  repeat constructor; cbn; intros H; repeat (destruct H as [H|H]; [discriminate H|]); exact H.
Qed.
Lemma ex_answers : answers ex_path ex_movie.
Proof.
  intros t k v x [E|[E|[]]] B T; [discriminate E|]. injection E as <- <- <-.
  assert (L : forall i y, below (ex_head i) y -> False) by (intros i y H; inversion H; cbn in *; contradiction).
  assert (M : forall i y, below (ex_track i) y -> y = ex_head i).
  { intros i y H. inversion H as [o z I|o z w I J]; subst; cbn in I; destruct I as [I|[]]; [congruence|]. subst. exfalso. exact (L _ _ J). }
  assert (D : forall i, exists w, value_of (ex_head i) id_name w).
  { intros i. exists [48 + i], [], []. split; [reflexivity|]. intros []. }
  inversion B as [o z I|o z w I J]; subst; cbn in I; destruct I as [I|[I|[]]]; subst; try discriminate T;
    apply M in J; subst; apply D.
Qed.

(** ** C91 *)
(** Asked for all, exactly the boxes at the end of the path. *)
Lemma C91_all_partial_pf : forall path o, path <> [] -> Forall crit_ok path -> answers path o ->
  exists l, find o (map crit_text path) false = Ok l /\ forall x, In x l <-> reached path o x.
Proof.
  intros path o N F A. exists (select path o). split; [|intros x; apply select_reached].
  rewrite find_same by assumption. unfold find_general. change [(o, map crit_text path)] with (texts [(o, path)]). rewrite (all_found (boxes o) [(o, path)] []).
  - cbn [app chosen flat_map fst snd]. rewrite app_nil_r. reflexivity.
  - unfold weight, list_sum. cbn [texts map fst fold_right]. lia.
  - repeat constructor; assumption.
Qed.
Example C91_all_case : Forall crit_ok ex_path /\ answers ex_path ex_movie /\
  find ex_movie (map crit_text ex_path) false = Ok [ex_head 2] /\
  find ex_movie (map crit_text [Plain trak_type; With tkhd_type id_name [50; 53]]) false = Ok [] /\
  find (ex_track 2) (map crit_text [With trak_type id_name [50]]) false = Ok [] /\
  find ex_movie (map crit_text [Plain trak_type; Plain tkhd_type]) false = Ok [ex_head 1; ex_head 2] /\
  find ex_movie (map crit_text [Plain trak_type]) false = Ok [ex_track 1; ex_track 2] /\
  find (Obj [] [] [ex_movie; ex_movie]) (map crit_text (Plain (o_type ex_movie) :: ex_path)) false = Ok [ex_head 2; ex_head 2].
Proof. split; [exact ex_ok|]. split; [exact ex_answers|]. repeat split; vm_compute; reflexivity. Qed.
(** Asked for one, with a type alone at the end of the path: one of these boxes,
    and none only if there is none. *)
Lemma C91_first_partial_pf : forall path t o, Forall crit_ok (path ++ [Plain t]) -> answers (path ++ [Plain t]) o ->
  (exists x, find o (map crit_text (path ++ [Plain t])) true = Ok [x] /\ reached (path ++ [Plain t]) o x) \/
  (find o (map crit_text (path ++ [Plain t])) true = Ok [] /\ forall x, ~ reached (path ++ [Plain t]) o x).
Proof.
  intros path t o F A. set (p := (path ++ [Plain t])%list) in *.
  assert (E : find o (map crit_text p) true = Ok (firstn 1 (select p o))).
  { rewrite find_same by assumption. unfold find_general. pose proof (first_found (boxes o) [(o, p)]) as H. cbn [chosen flat_map fst snd] in H. rewrite app_nil_r in H. apply H.
    - unfold weight, list_sum. cbn [texts map fst fold_right]. lia.
    - repeat constructor; try assumption. cbn [snd]. unfold p. intros Z. apply app_eq_nil in Z. destruct Z as [_ Z]. discriminate Z.
    - repeat constructor. exists t. unfold p. cbn [snd]. apply last_last. }
  rewrite E. pose proof (fun x => select_reached p o x) as S. destruct (select p o) as [|y l].
  - right. split; [reflexivity|]. intros x R. apply (S x) in R. exact R.
  - left. exists y. split; [reflexivity|]. apply S. left. reflexivity.
Qed.
Example C91_first_case : crit_ok (Plain tkhd_type) /\
  find ex_movie (map crit_text [Plain trak_type; Plain tkhd_type]) true = Ok [ex_head 1] /\
  find ex_movie (map crit_text [Plain tkhd_type; Plain tkhd_type]) true = Ok [] /\
  find ex_movie (map crit_text [Plain tkhd_type]) true = Ok [] /\
  find (Obj [] [] [ex_movie]) (map crit_text [Plain (o_type ex_movie); Plain trak_type]) true = Ok [ex_track 1].
Proof. split; [reflexivity|]. repeat split; vm_compute; reflexivity. Qed.
(** With a criterion at the end the first box without a child that meets it ends
    the search: the box is there, is found among all, but asking for it fails. *)
Lemma C91_first_refuted_pf : exists path o x, Forall crit_ok path /\ answers path o /\ reached path o x /\
  find o (map crit_text path) false = Ok [x] /\ find o (map crit_text path) true = Err "IndexError".
Proof.
  exists ex_path, ex_movie, (ex_head 2). split; [exact ex_ok|]. split; [exact ex_answers|]. split; [|split; vm_compute; reflexivity].
  apply select_reached. vm_compute. left. reflexivity.
Qed.
