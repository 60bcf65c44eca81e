(** Gaps and overlaps in a list of segments: start of the later and end of the
    earlier segment wherever they differ. *)
From Verif Require Import Base VodSpec.
Open Scope Z_scope.

Fixpoint gaps (l : list seg) : list (Z * Z) :=
  match l with
  | s :: (n :: _) as r => if s_start n =? s_end s then gaps r else (s_start n, s_end s) :: gaps r
  | _ => []
  end.
(** Each segment starts where the one before it ended. *)
Definition gapless (l : list seg) : Prop :=
  forall a s n b, l = (a ++ s :: n :: b)%list -> s_start n = s_end s.
