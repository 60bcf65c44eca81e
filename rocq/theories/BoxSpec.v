(** ISO base media boxes as trees, and their byte layout: what "well-formed
    box sequence" means.  A box is a 32-bit big-endian size (header included),
    a four-byte type and either a payload or child boxes. *)
From Verif Require Import Base BytesModel.
Open Scope Z_scope.

Inductive box :=
| Leaf (t payload : bytes)
| Node (t : bytes) (kids : list box).

Definition be32 (z : Z) : bytes :=
  [z / 16777216 mod 256; z / 65536 mod 256; z / 256 mod 256; z mod 256].
Definition be64 (z : Z) : bytes := be32 (z / 4294967296) ++ be32 (z mod 4294967296).

Fixpoint enc (b : box) : bytes :=
  match b with
  | Leaf t p => be32 (8 + blen p) ++ t ++ p
  | Node t ks =>
      let body := (fix go l := match l with [] => [] | k :: r => enc k ++ go r end) ks in
      be32 (8 + blen body) ++ t ++ body
  end.
Fixpoint encs (l : list box) : bytes :=
  match l with [] => [] | b :: r => enc b ++ encs r end.

Definition btype (b : box) : bytes := match b with Leaf t _ => t | Node t _ => t end.

(** Well-formed: four-byte types, sizes that fit the size field, and boxes are
    opened exactly when their type is a container type; [lk t p] is an extra
    requirement on the payload of a leaf of type t. *)
Fixpoint box_ok (containers : list bytes) (lk : bytes -> bytes -> Prop) (b : box) : Prop :=
  match b with
  | Leaf t p => blen t = 4 /\ ~ In t containers /\ 8 + blen p < 4294967296 /\ lk t p
  | Node t ks => blen t = 4 /\ In t containers /\ blen (enc (Node t ks)) < 4294967296 /\
      (fix go l := match l with [] => True | k :: r => box_ok containers lk k /\ go r end) ks
  end.
Fixpoint boxes_ok (containers : list bytes) (lk : bytes -> bytes -> Prop) (l : list box) : Prop :=
  match l with [] => True | b :: r => box_ok containers lk b /\ boxes_ok containers lk r end.
Definition any_payload (t p : bytes) : Prop := True.
