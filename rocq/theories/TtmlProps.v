(** Property theorems; proofs in TtmlTheory.v, where the examples that meet the
    hypotheses stand beside each lemma. Generated by tools/gen_props.py. *)
From Coq Require Import ZifyBool ZifyNat.
From Verif Require Import Base BaseProofs BytesModel BytesProofs TimeModel TimeProofs TtmlModel TtmlSpec.
From Verif Require Import TtmlTheory.
Open Scope Z_scope.

(** Every byte string is a document: cutting it at the stamps is possible. *)
Theorem C33_documents : forall b, exists l, document l /\ render stamp_text l = b.
Proof. exact C33_documents_pf. Qed.
Print Assumptions C33_documents.

(** The times move by exactly the offset and every other byte stays, in a
    document without the two visible texts that are rewritten as well. *)
Theorem C33_shift : forall l off nr, document l -> Forall (fun a => 0 <= seconds a + off) (stamps l) ->
  ~ found content_pattern (render stamp_text l) -> ~ found segment_pattern (render stamp_text l) ->
  adjust_ttml_content (render stamp_text l) off nr = render (moved_text off) l.
Proof. exact C33_shift_pf. Qed.
(* examples meeting the hypotheses: C33_shift_case *)
Print Assumptions C33_shift.

(** A zero offset changes nothing when minutes and seconds are below 60. *)
Theorem C33_zero : forall l nr, document l -> Forall canonical (stamps l) ->
  ~ found content_pattern (render stamp_text l) -> ~ found segment_pattern (render stamp_text l) ->
  adjust_ttml_content (render stamp_text l) 0 nr = render stamp_text l.
Proof. exact C33_zero_pf. Qed.
(* examples meeting the hypotheses: C33_zero_case *)
Print Assumptions C33_zero.

(** Two shifts are one shift by the sum, while the hours stay two digits. *)
Theorem C33_twice : forall l o1 o2 n1 n2, document l ->
  Forall (fun a => 0 <= seconds a + o1 < 360000 /\ 0 <= seconds a + o1 + o2) (stamps l) ->
  ~ found content_pattern (render stamp_text l) -> ~ found segment_pattern (render stamp_text l) ->
  adjust_ttml_content (adjust_ttml_content (render stamp_text l) o1 n1) o2 n2 =
  adjust_ttml_content (render stamp_text l) (o1 + o2) n2.
Proof. exact C33_twice_pf. Qed.
(* examples meeting the hypotheses: C33_twice_case *)
Print Assumptions C33_twice.

(** From 100 hours on the times are no longer recognised. *)
Theorem C33_hundred_hours_refuted : exists b o1 o2 n, 0 <= o1 /\ 0 <= o2 /\
  adjust_ttml_content (adjust_ttml_content b o1 n) o2 n <> adjust_ttml_content b (o1 + o2) n.
Proof. exact C33_hundred_hours_refuted_pf. Qed.
Print Assumptions C33_hundred_hours_refuted.

(** A zero offset is not always neutral: [00:75:00] becomes [01:15:00]. *)
Theorem C33_zero_refuted : exists b n, adjust_ttml_content b 0 n <> b.
Proof. exact C33_zero_refuted_pf. Qed.
Print Assumptions C33_zero_refuted.

Theorem C33_cuts : forall b, (exists l, complete line_ok line_text l /\ render line_text l = b) /\
  (exists l, complete seg_ok seg_text l /\ render seg_text l = b).
Proof. exact C33_cuts_pf. Qed.
Print Assumptions C33_cuts.

(** Any document at all: cut it at the stamps and move them; cut the outcome at
    the lines [language : hh:mm:ss.fraction] and put the UTC time of the moved
    time; cut that at the segment numbers and put the number of the segment. *)
Theorem C33_passes : forall l1 l2 l3 off nr,
  document l1 -> Forall (fun a => 0 <= seconds a + off) (stamps l1) ->
  complete line_ok line_text l2 -> render line_text l2 = render (moved_text off) l1 ->
  complete seg_ok seg_text l3 -> render seg_text l3 = render (line_out off (fun t => bstr (make_timestamp t))) l2 ->
  adjust_ttml_content (render stamp_text l1) off nr = render (fun _ => seg_text (bstr (print_Z nr))) l3.
Proof. exact C33_passes_pf. Qed.
(* examples meeting the hypotheses: C33_passes_case, C33_lines_case *)
Print Assumptions C33_passes.
