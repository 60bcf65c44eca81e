(** Property theorems; proofs in RunTheory.v, where the examples that meet the
    hypotheses stand beside each lemma. Generated by tools/gen_props.py. *)
From Verif Require Import Base BytesModel BoxSpec RunModel RunSpec RunProofs RunProofs2.
From Verif Require ChunkSpec.
From Coq Require Import Lia ZArith List.
Import ListNotations.
From Verif Require Import RunTheory.
Open Scope Z_scope.

(** ** Runs *)
Theorem C83_durations_partial : forall r data o default d,
  ChunkSpec.run_ok r -> Forall small_offset (ChunkSpec.rn_entries r) -> lies data o (run_box r) ->
  (Z.testbit (ChunkSpec.rn_flags r) 8 = true \/ default = Some d) -> 0 <= d ->
  exists lo hi, get_durations data o default = Ok (lasting (samples_of d r), lo, hi) /\
    earliest (begins (samples_of d r)) lo /\ latest (finishes (samples_of d r)) hi.
Proof. exact C83_durations_partial_pf. Qed.
(* examples meeting the hypotheses: C83_durations_case *)
Print Assumptions C83_durations_partial.

Theorem C83_empty_run_refuted : exists r data o, ChunkSpec.rn_entries r = [] /\ lies data o (run_box r) /\
  lasting (samples_of 0 r) = 0 /\ get_durations data o (Some 20) = Err "IndexError".
Proof. exact C83_empty_run_refuted_pf. Qed.
Print Assumptions C83_empty_run_refuted.

Theorem C83_no_default_refuted : exists r data o d, ChunkSpec.run_ok r /\ lies data o (run_box r) /\ 0 < d /\
  lasting (samples_of d r) = d /\ get_durations data o None = Ok (0, 0, 0).
Proof. exact C83_no_default_refuted_pf. Qed.
Print Assumptions C83_no_default_refuted.

Theorem C83_unsigned_refuted : exists r data o, ChunkSpec.run_ok r /\ lies data o (run_box r) /\
  earliest (begins (samples_of 0 r)) 2147483648 /\ get_durations data o None = Ok (20, -2147483648, -2147483628).
Proof. exact C83_unsigned_refuted_pf. Qed.
Print Assumptions C83_unsigned_refuted.

(** ** Points *)
Theorem C83_points_partial : forall data o a i p,
  access_ok a -> lies data o (access_box a) -> nth_error (ac_points a) i = Some p ->
  narrow (ac_traf a) (p_traf p) -> narrow (ac_trun a) (p_trun p) -> narrow (ac_sample a) (p_sample p) ->
  tfra_track data o = Ok (ac_track a) /\
  entry data o (Z.of_nat i) = Ok (p_time p, p_moof p, p_traf p, p_trun p, p_sample p).
Proof. exact C83_points_partial_pf. Qed.
(* examples meeting the hypotheses: C83_points_case *)
Print Assumptions C83_points_partial.

Theorem C83_narrow_refuted : exists data o a p, access_ok a /\ lies data o (access_box a) /\ nth_error (ac_points a) 0 = Some p /\
  p_traf p = 65537 /\ entry data o 0 = Ok (p_time p, p_moof p, 1, p_trun p, p_sample p).
Proof. exact C83_narrow_refuted_pf. Qed.
Print Assumptions C83_narrow_refuted.

(** ** Fragments *)
Theorem C83_fragments : forall data o a, access_ok a -> lies data o (access_box a) ->
  fragment_count data o = Ok (Z.of_nat (List.length (fragments (ac_points a)))) /\
  (forall k p, nth_error (fragments (ac_points a)) k = Some p ->
    time_for_fragment data o (Z.of_nat k + 1) = Ok (Some (p_time p)) /\
    moof_offset_for_fragment data o (Z.of_nat k + 1) =
      Ok (Some (p_moof p, match nth_error (fragments (ac_points a)) (S k) with Some q => p_moof q - p_moof p | None => 0 end))) /\
  (forall n, Z.of_nat (List.length (fragments (ac_points a))) < n ->
    time_for_fragment data o n = Ok None /\ moof_offset_for_fragment data o n = Ok None).
Proof. exact C83_fragments_pf. Qed.
(* examples meeting the hypotheses: C83_fragments_case *)
Print Assumptions C83_fragments.

(** Fragments count from 1, but fragment 0 is answered with the last one. *)
Theorem C83_fragment_zero_refuted : exists data o a, access_ok a /\ lies data o (access_box a) /\
  (exists p, nth_error (fragments (ac_points a)) 2 = Some p /\ p_time p = 300) /\ time_for_fragment data o 0 = Ok (Some 300).
Proof. exact C83_fragment_zero_refuted_pf. Qed.
Print Assumptions C83_fragment_zero_refuted.

(** ** Offsets *)
Theorem C83_offsets : forall data o a before p after, access_ok a -> lies data o (access_box a) ->
  ac_points a = before ++ p :: after -> Forall (fun q => p_moof q <> p_moof p) before ->
  time_for_moof_offset data o (p_moof p) = Ok (p_time p).
Proof. exact C83_offsets_pf. Qed.
(* examples meeting the hypotheses: C83_offsets_case *)
Print Assumptions C83_offsets.

(** ** Seeking *)
Theorem C83_seek_partial : forall data o a t, access_ok a -> lies data o (access_box a) -> ordered (ac_points a) ->
  (forall p, last_until (ac_points a) t p ->
    (forall q, In q (fragments (ac_points a)) -> p_time q = t -> hd_error (ac_points a) = Some q) ->
    moof_offset_for_time data o t = Ok (p_moof p)) /\
  (forall first rest, ac_points a = first :: rest -> t <= p_time first -> moof_offset_for_time data o t = Ok (p_moof first)).
Proof. exact C83_seek_partial_pf. Qed.
(* examples meeting the hypotheses: C83_seek_case *)
Print Assumptions C83_seek_partial.

(** The time at which a fragment begins is answered with the fragment before it. *)
Theorem C83_seek_refuted : exists data o a t p, access_ok a /\ lies data o (access_box a) /\ ordered (ac_points a) /\
  last_until (ac_points a) t p /\ p_moof p = 3000 /\ moof_offset_for_time data o t = Ok 1000.
Proof. exact C83_seek_refuted_pf. Qed.
Print Assumptions C83_seek_refuted.

Theorem C83_seek_empty_refuted : exists data o a, access_ok a /\ lies data o (access_box a) /\ ac_points a = [] /\
  fragment_count data o = Ok 0 /\ moof_offset_for_time data o 0 = Err "IndexError".
Proof. exact C83_seek_empty_refuted_pf. Qed.
Print Assumptions C83_seek_empty_refuted.

(** ** The end *)
Theorem C83_end_partial : forall data o a rest p q, access_ok a -> lies data o (access_box a) ->
  ac_points a = rest ++ [p; q] -> end_time data o = Ok (p_time q + (p_time q - p_time p)).
Proof. exact C83_end_partial_pf. Qed.
(* examples meeting the hypotheses: C83_end_case *)
Print Assumptions C83_end_partial.

Theorem C83_end_refuted : exists data1 data2 o a1 a2, access_ok a1 /\ access_ok a2 /\
  lies data1 o (access_box a1) /\ lies data2 o (access_box a2) /\ ac_points a1 = ac_points a2 /\
  end_time data1 o = Ok 179744 /\ end_time data2 o = Ok 179488.
Proof. exact C83_end_refuted_pf. Qed.
Print Assumptions C83_end_refuted.

(** ** The size of the tables *)
Theorem C83_tail : forall data o v f n, 0 <= v < 256 -> 0 <= f < 16777216 -> 0 <= n < 4294967296 ->
  lies data o (tail_box v f n) -> mfro_at data o 16 = Ok n.
Proof. exact C83_tail_pf. Qed.
(* examples meeting the hypotheses: C83_tail_case *)
Print Assumptions C83_tail.
