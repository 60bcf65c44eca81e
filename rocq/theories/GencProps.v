(** Property theorems; proofs in GencTheory.v, where the examples that meet the
    hypotheses stand beside each lemma. Generated by tools/gen_props.py. *)
From Verif Require Import Base BaseProofs BytesModel BytesProofs BoxSpec HeadSpec ChunkModel ReadersModel GencModel GencSpec GencProofs.
From Verif Require Import GencTheory.
Open Scope Z_scope.

(** If the types were looked for as bytes, the map would say for each sample what
    its group or its track says. *)
Theorem C89_map_partial : forall data l tenc_of groups track n, fragment data l tenc_of groups track n ->
  exists m, init_sample_map meant data l tenc_of = Ok m /\ forall i, 0 <= i -> sample_encrypted_info m i = encryption groups track n i.
Proof. exact C89_map_partial_pf. Qed.
(* examples meeting the hypotheses: C89_map_partial_case *)
Print Assumptions C89_map_partial.

(** The values of the track are those that its box has, without a pattern. *)
Theorem C89_track_partial : forall pre post v flags e iv kid, tenc_proper v flags 0 e iv kid ->
  tenc_info (pre ++ tenc_box v flags 0 e iv kid ++ post) (blen pre) = Ok (e, iv, kid).
Proof. exact C89_track_partial_pf. Qed.
(* examples meeting the hypotheses: C89_track_partial_case *)
Print Assumptions C89_track_partial.

(** As the types are written, making the map fails for every fragment. *)
Theorem C89_no_map : forall data l tenc_of, init_sample_map written data l tenc_of = Err "AttributeError".
Proof. exact C89_no_map_pf. Qed.
(* examples meeting the hypotheses: C89_no_map_case *)
Print Assumptions C89_no_map.

(** And as nothing makes the map, every sample is said to be in the clear. *)
Theorem C89_clear_refuted : exists data l tenc_of groups track n, fragment data l tenc_of groups track n /\
  encryption groups track n 0 = (1, 8, repeat 5 16) /\ forall i, sample_encrypted_info constructed i = (0, 0, []).
Proof. exact C89_clear_refuted_pf. Qed.
Print Assumptions C89_clear_refuted.

(** A pattern (one of ten blocks, version 1) becomes part of the encryption flag. *)
Theorem C89_pattern_refuted : exists kid, tenc_proper 1 0 25 1 0 kid /\
  tenc_info (tenc_box 1 0 25 1 0 kid) 0 = Ok (6401, 0, kid).
Proof. exact C89_pattern_refuted_pf. Qed.
Print Assumptions C89_pattern_refuted.
