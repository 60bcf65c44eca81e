(** Property theorems; proofs in StppTheory.v, where the examples that meet the
    hypotheses stand beside each lemma. Generated by tools/gen_props.py. *)
From Verif Require Import Base BaseProofs BytesModel BytesProofs TimeModel TimeProofs TtmlModel TtmlSpec TtmlTheory LangModel LangTheory
  StppModel StppSpec StppProofs.
From Verif Require Import StppTheory.
Open Scope Z_scope.

(** The cues of a segment follow each other from its start on, and each
    paragraph gives begin, end, name and visible text of its cue. *)
Theorem C85_cues_partial : forall lang d r time, 0 <= time -> 0 < d -> 0 < r ->
  exists l ps, paragraphs lang d r time = Ok ps /\ tiles time (time + d) r l /\ Forall2 (says lang) l ps.
Proof. exact C85_cues_partial_pf. Qed.
Print Assumptions C85_cues_partial.

(** When the cue length divides the segment duration: at each instant exactly
    one cue of exactly one segment is on. *)
Theorem C85_cover_partial : forall lang d r q k, 0 < r -> 0 < q -> d = q * r -> 0 <= k ->
  exists l ps, paragraphs lang d r (k * d) = Ok ps /\ Forall2 (says lang) l ps /\
    (forall t, (exists c, In c l /\ on c t) <-> t / d = k) /\
    (forall c1 c2 t, In c1 l -> In c2 l -> on c1 t -> on c2 t -> c1 = c2).
Proof. exact C85_cover_partial_pf. Qed.
Print Assumptions C85_cover_partial.

(** What a session sends of a generated document: the same document with all
    cues moved by the time offset, and the UTC time as visible text. *)
Theorem C85_live_partial : forall lang d r time off nr, code lang -> 0 <= time -> 0 < d -> 0 < r ->
  time + d + r <= 360000000 -> 0 <= time + 1000 * off ->
  exists l ps qs, paragraphs lang d r time = Ok ps /\ tiles time (time + d) r l /\
    adjust_ttml_content (bstr (ttml_doc ps)) off nr = bstr (ttml_doc qs) /\ Forall2 (says_live lang off) l qs.
Proof. exact C85_live_partial_pf. Qed.
(* examples meeting the hypotheses: C85_cues_case *)
Print Assumptions C85_live_partial.

(** Finding: a cue length that does not divide the segment duration makes the
    last cue of a segment run into the next, whose first cue is on as well. *)
Theorem C85_overlap_refuted : exists lang d r c1 c2 ps1 ps2 p1 p2 t, code lang /\ 0 < r < d /\
  paragraphs lang d r 0 = Ok ps1 /\ paragraphs lang d r d = Ok ps2 /\ In p1 ps1 /\ In p2 ps2 /\
  says lang c1 p1 /\ says lang c2 p2 /\ c1 <> c2 /\ on c1 t /\ on c2 t.
Proof. exact C85_overlap_refuted_pf. Qed.
Print Assumptions C85_overlap_refuted.

(** Finding: from 100 hours on the documents are sent as they are stored. *)
Theorem C85_hundred_hours_refuted : exists lang d r time off nr ps, code lang /\ 0 < off /\ 0 <= time /\ 0 < r /\ d = 2 * r /\
  paragraphs lang d r time = Ok ps /\ adjust_ttml_content (bstr (ttml_doc ps)) off nr = bstr (ttml_doc ps).
Proof. exact C85_hundred_hours_refuted_pf. Qed.
Print Assumptions C85_hundred_hours_refuted.

(** Finding: the documents say English whatever the language is. *)
Theorem C85_language_refuted : exists lang d r time ps, code lang /\ lang <> "eng"%string /\
  paragraphs lang d r time = Ok ps /\ ps <> [] /\ exists u v, bstr (ttml_doc ps) = u ++ bstr "xml:lang=""en"" " ++ v.
Proof. exact C85_language_refuted_pf. Qed.
Print Assumptions C85_language_refuted.

(** Finding: under Python 3 the tool writes no segment, whatever is asked for. *)
Theorem C85_no_output_refuted : exists number d r lang, code lang /\ 0 < number /\ 0 < r /\ d = 2 * r /\
  forall imore mmore irest rest files, create_segments imore mmore irest rest lang number d r <> Ok files.
Proof. exact C85_no_output_refuted_pf. Qed.
Print Assumptions C85_no_output_refuted.
