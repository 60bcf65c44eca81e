(** Paths: types, possibly with the value an attribute has to have. *)
From Verif Require Import Base BytesModel CritModel.
Open Scope Z_scope.

Inductive criterion := Plain (t : bytes) | With (t key value : bytes).
(** How it is written: tkhd, tkhd[track_id=2]. *)
Definition crit_text (c : criterion) : bytes :=
  match c with Plain t => t | With t k v => t ++ [91] ++ k ++ [61] ++ v ++ [93] end.
Definition crit_ok (c : criterion) : Prop :=
  match c with Plain t => blen t = 4 | With t k v => blen t = 4 /\ ~ In 61 k /\ ~ In 61 v end.
(** The value of an attribute, if the box has it. *)
Definition value_of (o : obj) (key : bytes) (v : bytes) : Prop :=
  exists a b, o_attrs o = (a ++ (key, v) :: b)%list /\ ~ In key (map fst a).
(** Which boxes are meant. *)
Definition meets (c : criterion) (o : obj) : Prop :=
  match c with Plain t => o_type o = t | With t k v => o_type o = t /\ value_of o k v end.
(** The boxes at the end of a path from [o]. *)
Inductive reached : list criterion -> obj -> obj -> Prop :=
| reached_last : forall c o x, In x (o_children o) -> meets c x -> reached [c] o x
| reached_step : forall c r o y x, In y (o_children o) -> meets c y -> reached r y x -> reached (c :: r) o x.
(** Boxes of the type asked for have the attribute asked for. *)
Inductive below : obj -> obj -> Prop :=
| below_child : forall o x, In x (o_children o) -> below o x
| below_deeper : forall o y x, In y (o_children o) -> below y x -> below o x.
Definition answers (path : list criterion) (o : obj) : Prop :=
  forall t k v x, In (With t k v) path -> below o x -> o_type x = t -> exists w, value_of x k w.
