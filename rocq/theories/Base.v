(** Python primitives used by all model files: error values, ints, decimal
    text, string splitting, rational clock values.  Nothing here is specific to
    one file of /repo; the comments say which Python construct is meant. *)
From Coq Require Export ZArith QArith Qround List Bool Ascii String Lia.
From Coq Require Import Lqa.
Export ListNotations.
Global Set Warnings "-deprecated".
Open Scope Z_scope.
Open Scope bool_scope.

(** A Python computation either returns or raises; [Err] carries the name of
    the exception (and sometimes a detail) as text. *)
Inductive result (A : Type) : Type :=
| Ok (a : A)
| Err (e : string).
Arguments Ok {A} a.
Arguments Err {A} e.

(** An exception raised by the first part is that of the whole. *)
Definition bind {A B} (x : result A) (f : A -> result B) : result B :=
  match x with Ok a => f a | Err e => Err e end.
Notation "'let*' x ':=' c1 'in' c2" := (bind c1 (fun x => c2))
  (at level 61, x pattern, c1 at next level, right associativity).

(** No exception was raised. *)
Definition is_ok {A} (x : result A) : bool :=
  match x with Ok _ => true | Err _ => false end.

(** Python [a // b] and [a % b] on ints: floor division, ZeroDivisionError. *)
Definition py_div (a b : Z) : result Z :=
  if b =? 0 then Err "ZeroDivisionError" else Ok (a / b).
(** Python [a % b] on ints *)
Definition py_mod (a b : Z) : result Z :=
  if b =? 0 then Err "ZeroDivisionError" else Ok (a mod b).

(** Rational stand-ins for Python floats (IEEE rounding not modelled). *)
Definition Qltb (a b : Q) : bool := negb (Qle_bool b a).
(** [a <= b] *)
Definition Qleb (a b : Q) : bool := Qle_bool a b.
(** Python [int(x)] on a float: truncation towards zero. *)
Definition py_int_of_Q (q : Q) : Z :=
  if Qleb 0 q then Qfloor q else Qceiling q.
(** Python [round(x)]: nearest integer, ties to even. *)
Definition py_round (q : Q) : Z :=
  let f := Qfloor q in
  let r := Qminus q (inject_Z f) in
  if Qltb r (1#2) then f
  else if Qltb (1#2) r then f + 1
  else if Z.even f then f else f + 1.

(** ** Characters and decimal numbers *)
Definition digit_val (c : ascii) : option Z :=
  let n := Z.of_nat (nat_of_ascii c) in
  if (48 <=? n) && (n <=? 57) then Some (n - 48) else None.
(** the character of a digit *)
Definition digit_char (d : Z) : ascii := ascii_of_nat (Z.to_nat (48 + d)).

(** Python [int()] whitespace: ASCII part of str.isspace. *)
Definition is_space (c : ascii) : bool :=
  let n := Z.of_nat (nat_of_ascii c) in
  ((9 <=? n) && (n <=? 13)) || (n =? 32) || ((28 <=? n) && (n <=? 31)).

(** [s.lstrip()] *)
Fixpoint lstrip (s : string) : string :=
  match s with
  | EmptyString => EmptyString
  | String c t => if is_space c then lstrip t else s
  end.
(** [s] backwards in front of [acc] *)
Fixpoint string_rev_app (s acc : string) : string :=
  match s with
  | EmptyString => acc
  | String c t => string_rev_app t (String c acc)
  end.
(** [s[::-1]] *)
Definition string_rev (s : string) : string := string_rev_app s EmptyString.
(** [s.strip()] *)
Definition strip (s : string) : string :=
  string_rev (lstrip (string_rev (lstrip s))).

(** Digits with single underscores between them, as accepted by Python 3.6+
    [int()].  [seen] says that the previous character was a digit. *)
Fixpoint parse_digits (s : string) (acc : Z) (seen : bool) : option Z :=
  match s with
  | EmptyString => if seen then Some acc else None
  | String c t =>
      match digit_val c with
      | Some d => parse_digits t (acc * 10 + d) true
      | None => if Ascii.eqb c "_" && seen then parse_digits t acc false else None
      end
  end.

(** Python [int(s)] for a str (ASCII; non-ASCII digits are not modelled). *)
Definition py_int (s : string) : result Z :=
  let r := match strip s with
           | String "-" t => option_map Z.opp (parse_digits t 0 false)
           | String "+" t => parse_digits t 0 false
           | t => parse_digits t 0 false
           end in
  match r with Some z => Ok z | None => Err "ValueError" end.

(** Python [float(s)], restricted to an optional sign and plain decimals
    [ddd], [ddd.], [.ddd], [ddd.ddd]; the other spellings Python accepts
    (exponents, underscores, surrounding blanks, "nan", "infinity") are treated
    as ValueError: a simplification. *)
Fixpoint parse_plain (s : string) (acc : Z) (n : nat) : option (Z * nat) :=
  match s with
  | EmptyString => Some (acc, n)
  | String c t =>
      match digit_val c with
      | Some d => parse_plain t (acc * 10 + d) (S n)
      | None => None
      end
  end.
(** [s.split(sep, 1)] when [sep] occurs *)
Fixpoint split_first (sep : ascii) (s : string) : option (string * string) :=
  match s with
  | EmptyString => None
  | String c t =>
      if Ascii.eqb c sep then Some (EmptyString, t)
      else match split_first sep t with
           | Some (a, b) => Some (String c a, b)
           | None => None
           end
  end.
(** a decimal number without a sign *)
Definition parse_ufloat (s : string) : option Q :=
  let '(ip, fp) := match split_first "." s with
                   | Some (a, b) => (a, b) | None => (s, EmptyString) end in
  match parse_plain ip 0 0, parse_plain fp 0 0 with
  | Some (a, n), Some (b, m) =>
      if Nat.eqb (n + m) 0 then None
      else Some (Qplus (inject_Z a) (Qmake b (Z.to_pos (10 ^ Z.of_nat m))))
  | _, _ => None
  end.
(** [float(s)], see above *)
Definition py_float (s : string) : result Q :=
  let r := match s with
           | String "-" t => option_map Qopp (parse_ufloat t)
           | String "+" t => parse_ufloat t
           | _ => parse_ufloat s
           end in
  match r with Some q => Ok q | None => Err "ValueError" end.

(** [str.split(sep)] for a one-character separator. *)
Fixpoint split_all (sep : ascii) (s : string) : list string :=
  match s with
  | EmptyString => [EmptyString]
  | String c t =>
      if Ascii.eqb c sep then EmptyString :: split_all sep t
      else match split_all sep t with
           | [] => [String c EmptyString]
           | h :: r => String c h :: r
           end
  end.

(** [str.split("__")]: non-overlapping, left to right. *)
Fixpoint split_dunder (s : string) : list string :=
  match s with
  | EmptyString => [EmptyString]
  | String c t =>
      let dflt := match split_dunder t with
                  | [] => [String c EmptyString]
                  | h :: r => String c h :: r
                  end in
      match t with
      | String c2 u => if Ascii.eqb c "_" && Ascii.eqb c2 "_"
                       then EmptyString :: split_dunder u else dflt
      | EmptyString => dflt
      end
  end.

(** ["/".join(parts)] *)
Fixpoint join (sep : string) (parts : list string) : string :=
  match parts with
  | [] => EmptyString
  | [x] => x
  | x :: r => (x ++ sep ++ join sep r)%string
  end.

(** [os.path.splitext] on a name without '/': split at the last dot, unless
    only dots precede it. *)
Fixpoint split_last_dot (s : string) : option (string * string) :=
  match s with
  | EmptyString => None
  | String c t =>
      match split_last_dot t with
      | Some (a, b) => Some (String c a, b)
      | None => if Ascii.eqb c "." then Some (EmptyString, s) else None
      end
  end.
(** only dots, as in os.path.splitext *)
Fixpoint all_dots (s : string) : bool :=
  match s with
  | EmptyString => true
  | String c t => Ascii.eqb c "." && all_dots t
  end.
(** [os.path.splitext(s)] *)
Definition splitext (s : string) : string * string :=
  match split_last_dot s with
  | Some (a, b) => if all_dots a then (s, EmptyString) else (a, b)
  | None => (s, EmptyString)
  end.

(** Decimal text of an int: ["%d" % n]. *)
Fixpoint print_pos_fuel (fuel : nat) (n : Z) (acc : string) : string :=
  match fuel with
  | O => acc
  | S f => let acc' := String (digit_char (n mod 10)) acc in
           if n / 10 =? 0 then acc' else print_pos_fuel f (n / 10) acc'
  end.
(** the digits of a number >= 0 *)
Definition print_nat (n : Z) : string :=
  print_pos_fuel (S (Z.to_nat (Z.log2 n))) n EmptyString.
(** ["%d" % n], [str(n)] *)
Definition print_Z (n : Z) : string :=
  if n <? 0 then String "-" (print_nat (- n)) else print_nat n.

(** list membership with a boolean equality: Python [x in list]. *)
Definition str_in (s : string) (l : list string) : bool :=
  existsb (String.eqb s) l.

(** last element, [l[-1]], IndexError on an empty list. *)
Fixpoint py_last {A} (l : list A) : result A :=
  match l with
  | [] => Err "IndexError"
  | [x] => Ok x
  | _ :: r => py_last r
  end.
(** [l[i]] for a non-negative literal index. *)
Definition py_nth {A} (l : list A) (i : nat) : result A :=
  match nth_error l i with Some x => Ok x | None => Err "IndexError" end.
(** all but the last element, [l[:-1]]. *)
Definition py_init {A} (l : list A) : list A := removelast l.
