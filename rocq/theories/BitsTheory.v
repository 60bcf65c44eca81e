(** Theorems about the bit writer and the bit reader (claim C44). *)
From Coq Require Import ZifyBool ZifyNat.
From Verif Require Import Base BaseProofs BitsModel BitsSpec BitsProofs.
Open Scope Z_scope.

(** C44, for fields of at most 33 bits: the fields are in the bytes one after
    the other, most significant bit first. *)
Lemma C44_written_partial_pf : forall l,
  Forall fits l -> Forall (fun f => snd f <= 33) l -> total_width l mod 8 = 0 ->
  exists w, write_fields l writer_init = Ok w /\
    8 * Z.of_nat (List.length (get_bytes w)) = total_width l /\
    Forall is_byte (get_bytes w) /\
    written_at (get_bytes w) 0 l.
Proof.
  intros l F W M.
  assert (S0 : state writer_init 0 0) by (constructor; cbn; [constructor|lia|lia|lia|lia]).
  destruct (write_state l writer_init 0 0 S0 F W) as (w & E & S). exists w. split; [exact E|].
  destruct S as [S1 S2 S3 S4 S5]. unfold get_bytes. assert (w_n w = 0) by (apply Z.mod_divide in M; [destruct M; lia|lia]).
  assert (L : 8 * Z.of_nat (List.length (w_bytes w)) = total_width l) by lia.
  split; [exact L|]. split; [exact S1|]. apply written; [exact F|]. rewrite <- L, be_field by exact S1.
  rewrite H in S4. cbn in S3, S4. rewrite H in S3. cbn in S3. lia.
Qed.

(** C44, for fields of at most 33 bits: reading the same widths yields the
    values. *)
Lemma C44_round_trip_partial_pf : forall l,
  Forall fits l -> Forall (fun f => snd f <= 33) l -> total_width l mod 8 = 0 -> 0 < total_width l ->
  exists w r r', write_fields l writer_init = Ok w /\
    reader_init (get_bytes w) = Ok r /\
    read_fields (map snd l) r = Ok (map fst l, r') /\
    remaining_bits r' = 0.
Proof.
  intros l F W M T. destruct (C44_written_partial_pf l F W M) as (w & E & L & B & A).
  exists w, (rd (get_bytes w) 0), (rd (get_bytes w) (total_width l)).
  split; [exact E|]. split; [apply reader_init_rd; intros N; rewrite N in L; cbn in L; lia|].
  split; [apply (read_written (get_bytes w) l 0); [lia|exact F|exact A]|].
  unfold remaining_bits, rd. cbn [r_buf r_bit]. lia.
Qed.

Definition ex_fields : list (Z * Z) := [(5, 3); (0, 1); (4660, 13); (1, 1); (6000000000, 33); (77, 21)].
Example C44_round_trip_example :
  Forall fits ex_fields /\ Forall (fun f => snd f <= 33) ex_fields /\ total_width ex_fields mod 8 = 0 /\ 0 < total_width ex_fields /\
  (let* w := write_fields ex_fields writer_init in Ok (get_bytes w)) = Ok [169; 26; 108; 180; 23; 128; 0; 0; 77].
Proof.
  split; [repeat constructor; cbn; lia|]. split; [repeat constructor; cbn; lia|]. split; [reflexivity|]. split; [cbn; lia|]. vm_compute. reflexivity.
Qed.

(** The listed statement has no bound on the width; the mask table has 34
    entries and a field of 42 bits raises. *)
Lemma C44_wide_refuted_pf : exists l,
  Forall fits l /\ total_width l mod 8 = 0 /\ write_fields l writer_init = Err "IndexError".
Proof.
  exists [(1, 42); (0, 6)]. split; [repeat constructor; cbn; lia|]. split; [reflexivity|]. vm_compute. reflexivity.
Qed.

(** The reader, for all buffers and positions: after [p] bits the next [n] bits
    are read as a number, zeros standing for the bits after the end. *)
Lemma C44_read_pf : forall buf r0 p x r n,
  reader_init buf = Ok r0 -> 0 <= p -> 0 <= n -> get_bits p r0 = Ok (x, r) ->
  exists r', get_bits n r = Ok (field_at buf p n, r') /\
    remaining_bits r' = 8 * Z.of_nat (List.length buf) - (p + n).
Proof.
  intros buf r0 p x r n I P N G. destruct buf as [|b l]; [discriminate|]. rewrite reader_init_rd in I by discriminate. injection I as <-.
  rewrite get_bits_rd in G by lia. apply ok_pair in G. destruct G as [_ <-].
  rewrite Z.add_0_l, get_bits_rd by lia. eexists. split; [reflexivity|]. unfold remaining_bits, rd. cbn [r_buf r_bit]. lia.
Qed.
Example C44_read_example :
  (let* r := reader_init [169; 26] in let* (_, r) := get_bits 3 r in let* (x, _) := get_bits 9 r in Ok x) = Ok (field_at [169; 26] 3 9) /\
  field_at [169; 26] 3 9 = 145.
Proof. split; vm_compute; reflexivity. Qed.

(** An exponential Golomb code anywhere in the buffer reads as its number, and
    exactly the code is consumed. *)
Lemma C44_golomb_pf : forall buf r0 p x r v,
  reader_init buf = Ok r0 -> 0 <= p -> get_bits p r0 = Ok (x, r) -> golomb_at buf p v ->
  exists k r', 2 ^ k <= v + 1 < 2 ^ (k + 1) /\ ue r = Ok (v, r') /\
    remaining_bits r' = 8 * Z.of_nat (List.length buf) - (p + 2 * k + 1).
Proof.
  intros buf r0 p x r v I P G (k & K & V & F & H). destruct buf as [|b l]; [discriminate|]. rewrite reader_init_rd in I by discriminate. injection I as <-.
  rewrite get_bits_rd in G by lia. apply ok_pair in G. destruct G as [_ <-]. rewrite Z.add_0_l.
  exists k, (rd (b :: l) (p + 2 * k + 1)). split; [exact V|]. split; [apply ue_golomb; assumption|].
  unfold remaining_bits, rd. cbn [r_buf r_bit]. lia.
Qed.
Example C44_golomb_example :
  golomb_at [162; 128] 3 9 /\
  (let* r := reader_init [162; 128] in let* (_, r) := get_bits 3 r in let* (v, r) := ue r in Ok (v, remaining_bits r)) = Ok (9, 6).
Proof. split; [exists 3; split; [lia|]; split; [cbn; lia|]; split; vm_compute; reflexivity|]. vm_compute. reflexivity. Qed.

(** The bits after the end of the buffer are zeros: when no bit is set from [p]
    on, reading a code does not end. *)
Lemma C44_golomb_endless_pf : forall buf r0 p x r,
  reader_init buf = Ok r0 -> 0 <= p -> get_bits p r0 = Ok (x, r) -> (forall q, p <= q -> bit_at buf q = false) ->
  ue r = Err "diverges".
Proof.
  intros buf r0 p x r I P G A. destruct buf as [|b l]; [discriminate|]. rewrite reader_init_rd in I by discriminate. injection I as <-.
  rewrite get_bits_rd in G by lia. apply ok_pair in G. destruct G as [_ <-]. rewrite Z.add_0_l.
  unfold ue. rewrite ue_zeros_end by assumption. reflexivity.
Qed.
Example C44_golomb_endless_example :
  (forall q, 3 <= q -> bit_at [160] q = false) /\
  (let* r := reader_init [160] in let* (_, r) := get_bits 3 r in let* (v, _) := ue r in Ok v) = Err "diverges".
Proof.
  split; [|vm_compute; reflexivity]. intros q Q. destruct (bit_at [160] q) eqn:E; [|reflexivity].
  assert (I := bit_inside [160] q ltac:(lia) E). cbn in I.
  assert (C : q = 3 \/ q = 4 \/ q = 5 \/ q = 6 \/ q = 7) by lia. destruct C as [-> | [-> | [-> | [-> | ->]]]]; vm_compute in E; discriminate.
Qed.
