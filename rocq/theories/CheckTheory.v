(** Statements about the checker of timing tables (C87). *)
From Verif Require Import Base BaseProofs BytesModel BytesProofs ConfigModel TimelineModel VodModel VodSpec VodProofs VodProofs2 VodProofs3 VodTheory
  CheckModel CheckSpec CheckProofs.
Open Scope Z_scope.

(** A table with three entries: two segments, one after a gap of 10, one that
    overlaps it by 5. *)
Definition ex_gaps : bytes :=
  [1; 0; 1; 0; 0; 0; 0; 0; 100; 0; 0; 0; 3; 0; 0; 0; 210; 0; 0; 0; 20; 0; 0; 0; 4; 0; 0; 0; 225; 0; 0; 0; 50; 0; 0; 0].
Definition ex_gap_table : list entry := [mk_entry 1 1 0 100; mk_entry 3 0 210 20; mk_entry 4 0 225 50].

(** ** C87 *)
(** The messages are exactly the gaps and overlaps between the segments of the
    table, in their order, each with the two times that differ. *)
Lemma C87_messages_pf : forall data tab, bytes_ok data -> read_table data = Ok tab ->
  parse_dat_file data = (gaps (expansion tab), None).
Proof.
  intros data tab B H. unfold parse_dat_file. rewrite (check_table _ _ _ None H).
  rewrite table_expansion by (exact (read_nonneg _ _ _ B H)). reflexivity.
Qed.
Example C87_messages_case : bytes_ok ex_gaps /\ read_table ex_gaps = Ok ex_gap_table /\
  List.length (expansion ex_gap_table) = 4%nat /\ parse_dat_file ex_gaps = ([(210, 200); (225, 230)], None).
Proof.
  split; [unfold bytes_ok, byte_ok, ex_gaps; repeat (constructor; [lia|]); constructor|]. vm_compute. auto.
Qed.
(** Nothing is said exactly if each segment starts where the one before it ends. *)
Lemma C87_silent_pf : forall data tab, bytes_ok data -> read_table data = Ok tab ->
  (parse_dat_file data = ([], None) <-> gapless (expansion tab)).
Proof.
  intros data tab B H. rewrite (C87_messages_pf data tab B H), <- gaps_gapless. split; [congruence|]. intros ->. reflexivity.
Qed.
Example C87_silent_case : parse_dat_file (md_table (nth 0 ex_tables (mk_mdata "" [] 0 0 "" []))) = ([], None) /\ ~ gapless (expansion ex_gap_table).
Proof.
  split; [vm_compute; reflexivity|]. rewrite <- gaps_gapless. vm_compute. discriminate.
Qed.
(** The table that the analyzer writes for contiguous content is never complained
    about. *)
Lemma C87_analyzed_pf : forall base sets cfg ms k s m r1 rs l,
  analyze base sets = Ok (cfg, ms) -> named sets -> nth_error sets k = Some s -> nth_error ms k = Some m ->
  vs_reps s = r1 :: rs -> segments_of r1 (md_timescale m) (vd_first cfg) l -> contiguous l ->
  parse_dat_file (md_table m) = ([], None).
Proof.
  intros base sets cfg ms k s m r1 rs l H FN S M RS SG CT.
  destruct (analyze_facts _ _ _ _ H FN) as (ns & n0 & ns' & _ & R & _).
  destruct (results_nth _ _ _ _ _ R _ _ _ S M) as (n & _ & SR).
  destruct SR as (_ & _ & _ & (r1' & rs' & l' & RS' & SG' & _ & _ & TB) & _).
  rewrite RS in RS'. injection RS' as <- <-. destruct (segments_det _ _ _ _ _ _ SG SG') as (<- & _).
  destruct (TB CT) as (tab & RT & EX & IR).
  unfold parse_dat_file. rewrite (check_table _ _ _ None RT). rewrite table_expansion.
  - rewrite EX. f_equal. clear - CT. induction l as [|x l IH]; [reflexivity|]. destruct CT as (_ & C & N). destruct l as [|y l]; [reflexivity|].
    rewrite gaps_cons, (IH C). unfold link. rewrite N, Z.eqb_refl. reflexivity.
  - eapply Forall_impl; [|exact IR]. intros e (_ & X & _). lia.
Qed.
Example C87_analyzed_case : parse_dat_file (md_table (nth 0 ex_tables (mk_mdata "" [] 0 0 "" []))) = ([], None).
Proof. exact (C87_analyzed_pf "content" ex_sets _ _ 0 _ _ _ _ ex_list ex_analysis ex_named eq_refl eq_refl eq_refl ex_list_of ex_contiguous). Qed.
(** A file that ends within an entry: the messages for the entries before it, and
    then an exception. *)
Lemma C87_cut_off_pf : forall data tab rest, bytes_ok data -> read_table data = Ok tab -> rest <> [] -> blen rest < 12 ->
  parse_dat_file (data ++ rest) = (gaps (expansion tab), Some "struct.error"%string).
Proof.
  intros data tab rest B H R L. unfold parse_dat_file.
  rewrite (check_cut _ _ _ None rest _ H (le_n _) R L) by (rewrite app_length; apply le_n).
  rewrite table_expansion by (exact (read_nonneg _ _ _ B H)). reflexivity.
Qed.
Example C87_cut_off_case : parse_dat_file (ex_gaps ++ [5; 0; 0]) = ([(210, 200); (225, 230)], Some "struct.error"%string).
Proof. vm_compute. reflexivity. Qed.
