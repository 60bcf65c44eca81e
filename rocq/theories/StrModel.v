(** The Python string operations used by mpd_proxy.py and mpdprocessor.py. *)
From Verif Require Import Base.
Local Open Scope string_scope.

(** [s.startswith(p)] *)
Fixpoint starts_with (p s : string) : bool :=
  match p, s with
  | EmptyString, _ => true
  | String a p', String b s' => Ascii.eqb a b && starts_with p' s'
  | _, EmptyString => false
  end.
(** [s.find(p)], None for -1. *)
Fixpoint find (p s : string) : option nat :=
  if starts_with p s then Some 0%nat
  else match s with
       | EmptyString => None
       | String _ s' => option_map S (find p s')
       end.
(** [p in s] *)
Definition contains (p s : string) : bool := match find p s with Some _ => true | None => false end.
(** [s[n:]] and [s[:n]] for n >= 0 *)
Fixpoint drop (n : nat) (s : string) : string :=
  match n, s with O, _ => s | S m, String _ s' => drop m s' | S _, EmptyString => EmptyString end.
(** [s[:n]] for n >= 0 (mpd_proxy.py 118-196) *)
Fixpoint take (n : nat) (s : string) : string :=
  match n, s with O, _ => EmptyString | S m, String a s' => String a (take m s') | S _, EmptyString => EmptyString end.
(** [s.replace(old, new)] for a non-empty [old]: leftmost, non-overlapping
    occurrences; [skip] is the number of characters still to be dropped. *)
Fixpoint replace_skip (old new s : string) (skip : nat) : string :=
  match s with
  | EmptyString => EmptyString
  | String a s' =>
      match skip with
      | S k => replace_skip old new s' k
      | O => if starts_with old s then new ++ replace_skip old new s' (String.length old - 1)
             else String a (replace_skip old new s' 0)
      end
  end.
(** [s.replace(old, new)] for a non-empty [old] (mpdprocessor.py 461) *)
Definition replace_all (old new s : string) : string := replace_skip old new s 0.
(** [s.replace(old, new, 1)] *)
Definition replace_first (old new s : string) : string :=
  match find old s with
  | None => s
  | Some i => take i s ++ new ++ drop (i + String.length old) s
  end.
(** [s.split("//")] *)
Fixpoint split_slashes (s : string) : list string :=
  match s with
  | EmptyString => [EmptyString]
  | String a s' =>
      match s' with
      | String b s'' =>
          if Ascii.eqb a "/" && Ascii.eqb b "/" then EmptyString :: split_slashes s''
          else match split_slashes s' with
               | x :: r => String a x :: r
               | [] => [String a EmptyString]
               end
      | EmptyString => [s]
      end
  end.
