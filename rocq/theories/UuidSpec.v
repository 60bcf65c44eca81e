(** Boxes with extended types, and the two contents (MS-SSTR 2.2.4.4, 2.2.4.5). *)
From Verif Require Import Base BytesModel BoxSpec HeadSpec.
Open Scope Z_scope.

Definition uuid_box (type : bytes) (v flags : Z) (content : bytes) : bytes :=
  plain_box (bstr "uuid") (type ++ versioned v flags ++ content).
(** where the content starts, counted from the start of the box *)
Definition uuid_content_at : Z := 28.
Definition pair_at (v : Z) (p : Z * Z) : bytes := wide v (fst p) ++ wide v (snd p).
Definition pair_ok (v : Z) (p : Z * Z) : Prop := fits (width v) (fst p) /\ fits (width v) (snd p).
Definition next_content (v : Z) (l : list (Z * Z)) : bytes := Z.of_nat (List.length l) :: List.concat (map (pair_at v) l).
