(** Subtitle documents as sequences of plain bytes and time stamps. *)
From Verif Require Import Base BytesModel.
Open Scope Z_scope.

(** A number below 100 in two digits; hours may need more. *)
Definition two (n : Z) : bytes := [48 + n / 10; 48 + n mod 10].
Definition hours (n : Z) : bytes := if n <? 100 then two n else bstr (print_Z n).
Definition clock (t : Z) : bytes := hours (t / 3600) ++ [58] ++ two (t / 60 mod 60) ++ [58] ++ two (t mod 60).

(** An occurrence [begin="hh:mm:ss] or [end="hh:mm:ss]; any two digits. *)
Record stamp := mk_stamp { st_begin : bool; st_h : Z; st_m : Z; st_s : Z }.
Definition stamp_ok (a : stamp) : Prop := 0 <= st_h a < 100 /\ 0 <= st_m a < 100 /\ 0 <= st_s a < 100.
Definition name_of (a : stamp) : bytes := if st_begin a then bstr "begin" else bstr "end".
Definition seconds (a : stamp) : Z := 3600 * st_h a + 60 * st_m a + st_s a.
Definition stamp_text (a : stamp) : bytes :=
  name_of a ++ [61; 34] ++ two (st_h a) ++ [58] ++ two (st_m a) ++ [58] ++ two (st_s a).
(** The occurrence with its time moved. *)
Definition moved_text (off : Z) (a : stamp) : bytes := name_of a ++ [61; 34] ++ clock (seconds a + off).
(** Minutes and seconds below 60. *)
Definition canonical (a : stamp) : Prop := st_m a < 60 /\ st_s a < 60.

(** A document: plain bytes and hits of some kind. *)
Inductive piece (A : Type) := Plain (x : Z) | Hit (a : A).
Arguments Plain {A} x.
Arguments Hit {A} a.
Fixpoint render {A} (f : A -> bytes) (l : list (piece A)) : bytes :=
  match l with
  | [] => []
  | Plain x :: r => x :: render f r
  | Hit a :: r => f a ++ render f r
  end.
(** All hits are valid and no hit starts at a plain byte. *)
Fixpoint complete {A} (ok : A -> bytes -> Prop) (f : A -> bytes) (l : list (piece A)) : Prop :=
  match l with
  | [] => True
  | Plain x :: r => (forall a t, x :: render f r = f a ++ t -> ~ ok a t) /\ complete ok f r
  | Hit a :: r => ok a (render f r) /\ complete ok f r
  end.
Definition document (l : list (piece stamp)) : Prop := complete (fun a _ => stamp_ok a) stamp_text l.
Fixpoint stamps {A} (l : list (piece A)) : list A :=
  match l with [] => [] | Plain _ :: r => stamps r | Hit a :: r => a :: stamps r end.

(** Patterns as sequences of byte classes. *)
Definition digit (b : Z) : bool := (48 <=? b) && (b <=? 57).
Definition word (b : Z) : bool := digit b || ((65 <=? b) && (b <=? 90)) || ((97 <=? b) && (b <=? 122)) || (b =? 95).
Definition lit (s : string) : list (Z -> bool) := map Z.eqb (bstr s).
Definition hms_pattern : list (Z -> bool) := [digit; digit; Z.eqb 58; digit; digit; Z.eqb 58; digit; digit].
Fixpoint starts (p : list (Z -> bool)) (b : bytes) : bool :=
  match p, b with
  | [], _ => true
  | c :: p', x :: b' => c x && starts p' b'
  | _, [] => false
  end.
Definition found (p : list (Z -> bool)) (b : bytes) : Prop := exists u v, b = u ++ v /\ starts p v = true.
(** A text [word : hh:mm:ss] and a text [Segment # digit]. *)
Definition content_pattern : list (Z -> bool) := word :: lit " : " ++ hms_pattern.
Definition segment_pattern : list (Z -> bool) := lit "Segment # " ++ [digit].

(** The visible content: [language : hh:mm:ss.fraction]. *)
Record line := mk_line { ln_lang : bytes; ln_h : Z; ln_m : Z; ln_s : Z; ln_frac : bytes }.
Definition line_text (a : line) : bytes :=
  ln_lang a ++ bstr " : " ++ two (ln_h a) ++ [58] ++ two (ln_m a) ++ [58] ++ two (ln_s a)
  ++ match ln_frac a with [] => [] | d => 46 :: d end.
Definition all_digit (d : bytes) : Prop := Forall (fun x => digit x = true) d.
(** The line takes all of the word and all of the fraction. *)
Definition line_ok (a : line) (rest : bytes) : Prop :=
  ln_lang a <> [] /\ Forall (fun x => word x = true) (ln_lang a) /\
  0 <= ln_h a < 100 /\ 0 <= ln_m a < 100 /\ 0 <= ln_s a < 100 /\ all_digit (ln_frac a) /\
  match ln_frac a with
  | [] => starts [Z.eqb 46; digit] rest = false
  | _ => starts [digit] rest = false
  end.
Definition seg_text (d : bytes) : bytes := bstr "Segment # " ++ d.
Definition seg_ok (d : bytes) (rest : bytes) : Prop := d <> [] /\ all_digit d /\ starts [digit] rest = false.
Definition line_out (off : Z) (stamp_of : Z -> bytes) (a : line) : bytes :=
  ln_lang a ++ bstr " : UTC = " ++ stamp_of (3600 * ln_h a + 60 * ln_m a + ln_s a + off).
