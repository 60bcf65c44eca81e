(** Property theorems; proofs in TablesTheory.v, where the examples that meet the
    hypotheses stand beside each lemma. Generated by tools/gen_props.py. *)
From Verif Require Import Base BaseProofs BytesModel BytesProofs BoxSpec Mp4Proofs ChunkModel TablesModel TablesSpec TablesProofs.
From Coq Require Import Lia ZArith List.
Import ListNotations.
From Verif Require Import TablesTheory.
Open Scope Z_scope.

(** Decoding time and duration of a sample *)
Theorem C79_time : forall data o runs l1 d l2, in_file data o (time_table runs) -> runs_ok runs -> expand runs = l1 ++ d :: l2 ->
  exists t, stts_at data o = Ok t /\ sample_time_and_duration t (count l1 + 1) = Ok (sum l1, d).
Proof. exact C79_time_pf. Qed.
Print Assumptions C79_time.

(** Composition offset of a sample.  Not covered: negative offsets. *)
Theorem C79_offset_partial : forall data o v runs l1 x l2, in_file data o (offset_table v runs) -> runs_ok runs -> expand runs = l1 ++ x :: l2 ->
  exists t, ctts_at data o = Ok t /\ sample_offset t (count l1 + 1) = Ok x.
Proof. exact C79_offset_partial_pf. Qed.
Print Assumptions C79_offset_partial.

(** Sync samples *)
Theorem C79_sync : forall data o l, in_file data o (sync_table l) -> Forall u32 l -> u32 (count l) ->
  exists t, stss_at data o = Ok t /\ forall n, has_index t n = true <-> In n l.
Proof. exact C79_sync_pf. Qed.
Print Assumptions C79_sync.

(** Place and size of a sample *)
Theorem C79_place : forall data o_stsc o_stsz o_stco es tsz tr t1 c t2 s1 s s2,
  in_file data o_stsc (chunk_table es) -> chunks_are es (map (fun c => count (c_sizes c)) tr) ->
  in_file data o_stsz tsz -> sizes_are tsz (all_sizes tr) ->
  (in_file data o_stco (start_table (map c_start tr)) /\ Forall u32 (map c_start tr) \/
   in_file data o_stco (long_start_table (map c_start tr)) /\ Forall u64 (map c_start tr)) -> u32 (count tr) ->
  tr = t1 ++ c :: t2 -> c_sizes c = s1 ++ s :: s2 ->
  let number := count (all_sizes t1) + count s1 + 1 in
  exists sc sz co, stsc_at data o_stsc = Ok sc /\ stsz_at data o_stsz = Ok sz /\ (stco_at data o_stco = Ok co \/ co64_at data o_stco = Ok co) /\
    chunk_and_index sc number = Ok (count t1 + 1, count s1) /\ chunk_offset co (count t1 + 1) = c_start c /\
    sample_size_and_offset sz number (count s1) (c_start c) = Ok (s, c_start c + sum s1).
Proof. exact C79_place_pf. Qed.
Print Assumptions C79_place.

(** A negative offset (version 1) is read as a large one. *)
Theorem C79_negative_refuted : exists data o runs l1 x l2 t, in_file data o (offset_table 1 runs) /\
  Forall (fun r => u32 (fst r) /\ -2147483648 <= snd r < 2147483648) runs /\ expand runs = l1 ++ x :: l2 /\
  ctts_at data o = Ok t /\ sample_offset t (count l1 + 1) <> Ok x.
Proof. exact C79_negative_refuted_pf. Qed.
Print Assumptions C79_negative_refuted.

(** A sample that the track does not have gets a time too: number 0 that of an
    earlier sample, and one after the last as if there were more. *)
Theorem C79_outside_refuted : exists data o runs t, in_file data o (time_table runs) /\ runs_ok runs /\ count (expand runs) = 3 /\
  stts_at data o = Ok t /\ sample_time_and_duration t 0 = Ok (8, 4) /\ sample_time_and_duration t 5 = Ok (28, 4).
Proof. exact C79_outside_refuted_pf. Qed.
(* examples meeting the hypotheses: C79_time_case, C79_offset_case, C79_sync_case, C79_place_case *)
Print Assumptions C79_outside_refuted.
