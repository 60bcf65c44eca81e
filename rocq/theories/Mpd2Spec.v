(** What the URLs in the generated manifest promise, and the options that name
    times relative to the request. *)
From Verif Require Import Base ConfigModel.
Local Open Scope string_scope.
Open Scope Z_scope.

(** A part of a path. *)
Definition no_slash (s : string) : Prop := ~ In "/"%char (list_ascii_of_string s).

(** The options of the location: times instead of relative times. *)
Definition absolute (a b : Z) (kv : string * string) : string * string :=
  if String.eqb (fst kv) "startrel" then ("start", print_Z a)
  else if String.eqb (fst kv) "stoprel" then ("stop", print_Z b) else kv.
Definition canonical (kv : string * string) : Prop :=
  fst kv = "startrel" \/ fst kv = "stoprel" -> exists z, snd kv = print_Z z.
(** Options that do not depend on the moment of the request, apart from the
    relative start and stop times. *)
Definition steady (kv : string * string) : Prop := ~ In (fst kv) ["dur"; "modulo"; "tfdt"; "cont"].
