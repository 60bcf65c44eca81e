(** Property theorems; proofs in CheckTheory.v, where the examples that meet the
    hypotheses stand beside each lemma. Generated by tools/gen_props.py. *)
From Verif Require Import Base BaseProofs BytesModel BytesProofs ConfigModel TimelineModel VodModel VodSpec VodProofs VodProofs2 VodProofs3 VodTheory
  CheckModel CheckSpec CheckProofs.
From Verif Require Import CheckTheory.
Open Scope Z_scope.

(** The messages are exactly the gaps and overlaps between the segments of the
    table, in their order, each with the two times that differ. *)
Theorem C87_messages : forall data tab, bytes_ok data -> read_table data = Ok tab ->
  parse_dat_file data = (gaps (expansion tab), None).
Proof. exact C87_messages_pf. Qed.
(* examples meeting the hypotheses: C87_messages_case *)
Print Assumptions C87_messages.

(** Nothing is said exactly if each segment starts where the one before it ends. *)
Theorem C87_silent : forall data tab, bytes_ok data -> read_table data = Ok tab ->
  (parse_dat_file data = ([], None) <-> gapless (expansion tab)).
Proof. exact C87_silent_pf. Qed.
(* examples meeting the hypotheses: C87_silent_case *)
Print Assumptions C87_silent.

(** The table that the analyzer writes for contiguous content is never complained
    about. *)
Theorem C87_analyzed : forall base sets cfg ms k s m r1 rs l,
  analyze base sets = Ok (cfg, ms) -> named sets -> nth_error sets k = Some s -> nth_error ms k = Some m ->
  vs_reps s = r1 :: rs -> segments_of r1 (md_timescale m) (vd_first cfg) l -> contiguous l ->
  parse_dat_file (md_table m) = ([], None).
Proof. exact C87_analyzed_pf. Qed.
(* examples meeting the hypotheses: C87_analyzed_case *)
Print Assumptions C87_analyzed.

(** A file that ends within an entry: the messages for the entries before it, and
    then an exception. *)
Theorem C87_cut_off : forall data tab rest, bytes_ok data -> read_table data = Ok tab -> rest <> [] -> blen rest < 12 ->
  parse_dat_file (data ++ rest) = (gaps (expansion tab), Some "struct.error"%string).
Proof. exact C87_cut_off_pf. Qed.
(* examples meeting the hypotheses: C87_cut_off_case *)
Print Assumptions C87_cut_off.
