(** Bit strings, most significant bit first, and fields in them. *)
From Verif Require Import Base.
Open Scope Z_scope.

(** The bit at a position of a buffer; the buffer goes on with zeros. *)
Definition bit_at (buf : list Z) (p : Z) : bool := Z.testbit (nth (Z.to_nat (p / 8)) buf 0) (7 - p mod 8).
(** The number with the given bits. *)
Definition bits_number (l : list bool) : Z := fold_left (fun a b => 2 * a + Z.b2z b) l 0.
(** The number in the [n] bits from position [p] on. *)
Definition field_at (buf : list Z) (p n : Z) : Z :=
  bits_number (map (fun i => bit_at buf (p + Z.of_nat i)) (seq 0 (Z.to_nat n))).

Definition is_byte (x : Z) : Prop := 0 <= x < 256.
(** A field (value, width) that fits. *)
Definition fits (f : Z * Z) : Prop := 0 <= snd f /\ 0 <= fst f < 2 ^ snd f.
Definition total_width (l : list (Z * Z)) : Z := fold_right (fun f a => snd f + a) 0 l.
(** The fields written one after the other are in the buffer from [p] on. *)
Fixpoint written_at (buf : list Z) (p : Z) (l : list (Z * Z)) : Prop :=
  match l with
  | [] => True
  | (v, n) :: r => field_at buf p n = v /\ written_at buf (p + n) r
  end.

(** An exponential Golomb code (ISO/IEC 14496-10, 9.1): [k] zeros, then the
    [k + 1] bits of v + 1. *)
Definition golomb_at (buf : list Z) (p v : Z) : Prop :=
  exists k, 0 <= k /\ 2 ^ k <= v + 1 < 2 ^ (k + 1) /\ field_at buf p k = 0 /\ field_at buf (p + k) (k + 1) = v + 1.
