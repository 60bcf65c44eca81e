(** What language codes are (C52), without reference to the model. *)
From Verif Require Import Base BytesModel.
Open Scope Z_scope.

(** ISO 639-2 codes: three letters between "a" and "z". *)
Definition lower_letter (c : ascii) : Prop := (97 <= nat_of_ascii c <= 122)%nat.
Definition language_code (s : string) : Prop :=
  exists a b c, s = String a (String b (String c EmptyString)) /\
    lower_letter a /\ lower_letter b /\ lower_letter c.

(** The characters that fit in five bits above 0x60: the letters and the six
    characters backquote, braces, bar, tilde and DEL around them. *)
Definition five_bits (c : ascii) : Prop := (96 <= nat_of_ascii c <= 127)%nat.
Definition five_bit_code (s : string) : Prop :=
  exists a b c, s = String a (String b (String c EmptyString)) /\ five_bits a /\ five_bits b /\ five_bits c.

(** A media header box (ISO/IEC 14496-12, 8.4.2): its length and size field, and
    version 0 or 1. *)
Definition media_header (box : bytes) : Prop :=
  be_val (btake 4 box) = blen box /\
  ((nth_error box 8 = Some 0 /\ blen box = 32) \/ (nth_error box 8 = Some 1 /\ blen box = 44)).
