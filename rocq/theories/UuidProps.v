(** Property theorems; proofs in UuidTheory.v, where the examples that meet the
    hypotheses stand beside each lemma. Generated by tools/gen_props.py. *)
From Verif Require Import Base BaseProofs BytesModel BytesProofs BoxSpec HeadSpec ChunkModel UuidModel UuidSpec UuidProofs.
From Verif Require Import UuidTheory.
Open Scope Z_scope.

(** Type, version and flags of a box with an extended type, for any content. *)
Theorem C90_extended : forall pre post type v flags c, blen type = 16 -> fits 8 v -> fits 24 flags ->
  uuid_at (pre ++ uuid_box type v flags c ++ post) (blen pre) = Ok (type, v, flags).
Proof. exact C90_extended_pf. Qed.
(* examples meeting the hypotheses: C90_extended_case *)
Print Assumptions C90_extended.

(** Time and duration of a fragment, from a box anywhere in a file, with the
    version and the content of the box. *)
Theorem C90_fragment_time : forall pre post type v flags p, blen type = 16 -> fits 8 v -> fits 24 flags -> pair_ok v p ->
  let b := uuid_box type v flags (pair_at v p) in
  let file := (pre ++ b ++ post)%list in
  exists v', uuid_at file (blen pre) = Ok (type, v', flags) /\
    tfxd_of (bslice (blen pre + uuid_content_at) (blen pre + blen b) file) v' = Ok p.
Proof. exact C90_fragment_time_pf. Qed.
(* examples meeting the hypotheses: C90_fragment_time_case *)
Print Assumptions C90_fragment_time.

(** Times and durations of the fragments that follow. *)
Theorem C90_next_times : forall pre post type v flags l, blen type = 16 -> fits 8 v -> fits 24 flags ->
  Z.of_nat (List.length l) < 256 -> Forall (pair_ok v) l ->
  let b := uuid_box type v flags (next_content v l) in
  let file := (pre ++ b ++ post)%list in
  exists v', uuid_at file (blen pre) = Ok (type, v', flags) /\
    tfrf_of (bslice (blen pre + uuid_content_at) (blen pre + blen b) file) v' = Ok l.
Proof. exact C90_next_times_pf. Qed.
(* examples meeting the hypotheses: C90_next_times_case *)
Print Assumptions C90_next_times.
