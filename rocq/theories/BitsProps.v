(** Property theorems; proofs in BitsTheory.v, where the examples that meet the
    hypotheses stand beside each lemma. Generated by tools/gen_props.py. *)
From Coq Require Import ZifyBool ZifyNat.
From Verif Require Import Base BaseProofs BitsModel BitsSpec BitsProofs.
From Verif Require Import BitsTheory.
Open Scope Z_scope.

(** C44, for fields of at most 33 bits: the fields are in the bytes one after
    the other, most significant bit first. *)
Theorem C44_written_partial : forall l,
  Forall fits l -> Forall (fun f => snd f <= 33) l -> total_width l mod 8 = 0 ->
  exists w, write_fields l writer_init = Ok w /\
    8 * Z.of_nat (List.length (get_bytes w)) = total_width l /\
    Forall is_byte (get_bytes w) /\
    written_at (get_bytes w) 0 l.
Proof. exact C44_written_partial_pf. Qed.
Print Assumptions C44_written_partial.

(** C44, for fields of at most 33 bits: reading the same widths yields the
    values. *)
Theorem C44_round_trip_partial : forall l,
  Forall fits l -> Forall (fun f => snd f <= 33) l -> total_width l mod 8 = 0 -> 0 < total_width l ->
  exists w r r', write_fields l writer_init = Ok w /\
    reader_init (get_bytes w) = Ok r /\
    read_fields (map snd l) r = Ok (map fst l, r') /\
    remaining_bits r' = 0.
Proof. exact C44_round_trip_partial_pf. Qed.
(* examples meeting the hypotheses: C44_round_trip_example *)
Print Assumptions C44_round_trip_partial.

(** The listed statement has no bound on the width; the mask table has 34
    entries and a field of 42 bits raises. *)
Theorem C44_wide_refuted : exists l,
  Forall fits l /\ total_width l mod 8 = 0 /\ write_fields l writer_init = Err "IndexError".
Proof. exact C44_wide_refuted_pf. Qed.
Print Assumptions C44_wide_refuted.

(** The reader, for all buffers and positions: after [p] bits the next [n] bits
    are read as a number, zeros standing for the bits after the end. *)
Theorem C44_read : forall buf r0 p x r n,
  reader_init buf = Ok r0 -> 0 <= p -> 0 <= n -> get_bits p r0 = Ok (x, r) ->
  exists r', get_bits n r = Ok (field_at buf p n, r') /\
    remaining_bits r' = 8 * Z.of_nat (List.length buf) - (p + n).
Proof. exact C44_read_pf. Qed.
(* examples meeting the hypotheses: C44_read_example *)
Print Assumptions C44_read.

(** An exponential Golomb code anywhere in the buffer reads as its number, and
    exactly the code is consumed. *)
Theorem C44_golomb : forall buf r0 p x r v,
  reader_init buf = Ok r0 -> 0 <= p -> get_bits p r0 = Ok (x, r) -> golomb_at buf p v ->
  exists k r', 2 ^ k <= v + 1 < 2 ^ (k + 1) /\ ue r = Ok (v, r') /\
    remaining_bits r' = 8 * Z.of_nat (List.length buf) - (p + 2 * k + 1).
Proof. exact C44_golomb_pf. Qed.
(* examples meeting the hypotheses: C44_golomb_example *)
Print Assumptions C44_golomb.

(** The bits after the end of the buffer are zeros: when no bit is set from [p]
    on, reading a code does not end. *)
Theorem C44_golomb_endless : forall buf r0 p x r,
  reader_init buf = Ok r0 -> 0 <= p -> get_bits p r0 = Ok (x, r) -> (forall q, p <= q -> bit_at buf q = false) ->
  ue r = Err "diverges".
Proof. exact C44_golomb_endless_pf. Qed.
(* examples meeting the hypotheses: C44_golomb_endless_example *)
Print Assumptions C44_golomb_endless.
