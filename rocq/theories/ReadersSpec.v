(** Vocabulary of property C80: a box that was written, somewhere in a file. *)
From Verif Require Import Base BytesModel ChunkModel BoxesModel.
Open Scope Z_scope.

(** The box [b] is written at position [o] of the file, [n] bytes long. *)
Definition written (data : bytes) (o : Z) (b : wbox) (n : Z) : Prop :=
  exists pre out post, serialize b = Ok out /\ data = pre ++ out ++ post /\ o = blen pre /\ n = blen out.
Definition bits (n x : Z) : Prop := 0 <= x < 2 ^ n.
