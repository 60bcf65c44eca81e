(** Vocabulary of property C79: the sample tables of ISO/IEC 14496-12, 8.6 and 8.7,
    and the tracks they describe. *)
From Verif Require Import Base BytesModel BoxSpec.
From Coq Require Import List ZArith.
Import ListNotations.
Open Scope Z_scope.

Definition u32 (x : Z) : Prop := 0 <= x < 4294967296.
Definition u64 (x : Z) : Prop := 0 <= x < 18446744073709551616.
(** The box starts at [o] of the file. *)
Definition in_file (data : bytes) (o : Z) (b : box) : Prop := exists pre post, data = pre ++ enc b ++ post /\ o = blen pre.
Definition count {A} (l : list A) : Z := Z.of_nat (List.length l).
Fixpoint sum (l : list Z) : Z := match l with [] => 0 | x :: r => x + sum r end.

(** 8.6.1.2 and 8.6.1.3: runs of samples with one value *)
Definition expand (runs : list (Z * Z)) : list Z := flat_map (fun r => repeat (snd r) (Z.to_nat (fst r))) runs.
Definition rows (runs : list (Z * Z)) : bytes := flat_map (fun r => be32 (fst r) ++ be32 (snd r)) runs.
Definition runs_ok (runs : list (Z * Z)) : Prop := Forall (fun r => u32 (fst r) /\ u32 (snd r)) runs /\ u32 (count runs).
Definition time_table (runs : list (Z * Z)) : box := Leaf (bstr "stts") ([0; 0; 0; 0] ++ be32 (count runs) ++ rows runs).
(** Composition offsets; signed numbers in two's complement with version 1 *)
Definition offset_table (version : Z) (runs : list (Z * Z)) : box :=
  Leaf (bstr "ctts") ([version; 0; 0; 0] ++ be32 (count runs) ++ flat_map (fun r => be32 (fst r) ++ be32 (snd r mod 4294967296)) runs).
(** 8.6.2: the samples that are sync samples *)
Definition sync_table (l : list Z) : box := Leaf (bstr "stss") ([0; 0; 0; 0] ++ be32 (count l) ++ flat_map be32 l).
(** 8.7.3: one size for all samples, or 0 and a list *)
Definition size_table (size : Z) (n : Z) (l : list Z) : box := Leaf (bstr "stsz") ([0; 0; 0; 0] ++ be32 size ++ be32 n ++ flat_map be32 l).
Inductive sizes_are : box -> list Z -> Prop :=
| sizes_same : forall x n, x <> 0 -> u32 x -> u32 (Z.of_nat n) -> sizes_are (size_table x (Z.of_nat n) []) (repeat x n)
| sizes_each : forall l, Forall u32 l -> u32 (count l) -> sizes_are (size_table 0 (count l) l) l.
(** 8.7.4: runs of chunks with the same number of samples, given by their first chunk;
    the last goes to the end *)
Definition entry := (Z * Z * Z)%type.
Definition first_chunk (e : entry) : Z := fst (fst e).
Definition per_chunk (e : entry) : Z := snd (fst e).
Definition next_first (n : Z) (rest : list entry) : Z := match rest with e :: _ => first_chunk e | [] => n + 1 end.
Fixpoint chunk_sizes (n : Z) (es : list entry) : list Z :=
  match es with
  | [] => []
  | e :: rest => repeat (per_chunk e) (Z.to_nat (next_first n rest - first_chunk e)) ++ chunk_sizes n rest
  end.
Fixpoint ascending (n : Z) (es : list entry) : Prop :=
  match es with [] => True | e :: rest => first_chunk e <= next_first n rest /\ ascending n rest end.
Definition chunk_table (es : list entry) : box :=
  Leaf (bstr "stsc") ([0; 0; 0; 0] ++ be32 (count es) ++ flat_map (fun e => be32 (first_chunk e) ++ be32 (per_chunk e) ++ be32 (snd e)) es).
Definition chunks_are (es : list entry) (l : list Z) : Prop :=
  Forall (fun e => u32 (first_chunk e) /\ u32 (per_chunk e) /\ u32 (snd e)) es /\ u32 (count es) /\
  next_first 0 es = 1 /\ ascending (count l) es /\ chunk_sizes (count l) es = l.
(** 8.7.5: where the chunks start *)
Definition start_table (l : list Z) : box := Leaf (bstr "stco") ([0; 0; 0; 0] ++ be32 (count l) ++ flat_map be32 l).
Definition long_start_table (l : list Z) : box := Leaf (bstr "co64") ([0; 0; 0; 0] ++ be32 (count l) ++ flat_map be64 l).

(** A track: chunks with their start and the sizes of their samples *)
Record chunk := mk_chunk { c_start : Z; c_sizes : list Z }.
Definition all_sizes (tr : list chunk) : list Z := flat_map c_sizes tr.
