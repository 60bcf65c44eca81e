(** Property theorems; proofs in CritTheory.v, where the examples that meet the
    hypotheses stand beside each lemma. Generated by tools/gen_props.py. *)
From Verif Require Import Base BaseProofs BytesModel BytesProofs CritModel CritSpec CritProofs.
From Verif Require Import CritTheory.
Open Scope Z_scope.

(** Asked for all, exactly the boxes at the end of the path. *)
Theorem C91_all_partial : forall path o, path <> [] -> Forall crit_ok path -> answers path o ->
  exists l, find o (map crit_text path) false = Ok l /\ forall x, In x l <-> reached path o x.
Proof. exact C91_all_partial_pf. Qed.
(* examples meeting the hypotheses: C91_all_case *)
Print Assumptions C91_all_partial.

(** Asked for one, with a type alone at the end of the path: one of these boxes,
    and none only if there is none. *)
Theorem C91_first_partial : forall path t o, Forall crit_ok (path ++ [Plain t]) -> answers (path ++ [Plain t]) o ->
  (exists x, find o (map crit_text (path ++ [Plain t])) true = Ok [x] /\ reached (path ++ [Plain t]) o x) \/
  (find o (map crit_text (path ++ [Plain t])) true = Ok [] /\ forall x, ~ reached (path ++ [Plain t]) o x).
Proof. exact C91_first_partial_pf. Qed.
(* examples meeting the hypotheses: C91_first_case *)
Print Assumptions C91_first_partial.

(** With a criterion at the end the first box without a child that meets it ends
    the search: the box is there, is found among all, but asking for it fails. *)
Theorem C91_first_refuted : exists path o x, Forall crit_ok path /\ answers path o /\ reached path o x /\
  find o (map crit_text path) false = Ok [x] /\ find o (map crit_text path) true = Err "IndexError".
Proof. exact C91_first_refuted_pf. Qed.
Print Assumptions C91_first_refuted.
