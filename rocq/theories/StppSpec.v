(** What generated subtitles are to say: cues, one after the other, each with
    its own time as text. *)
From Verif Require Import Base BaseProofs BytesModel TimeModel TtmlSpec StppModel.
Open Scope Z_scope.

(** hh:mm:ss.mmm of a time in milliseconds (hours may need more digits). *)
Definition three (n : Z) : bytes := [48 + n / 100; 48 + n / 10 mod 10; 48 + n mod 10].
Definition clock_ms (t : Z) : bytes := clock (t / 1000) ++ [46] ++ three (t mod 1000).

(** A cue: first and last instant, the latter excluded.  [tiles a b r l]: the
    cues [l] of [r] milliseconds follow each other from [a] on, without gap, up
    to the first that reaches [b]. *)
Fixpoint tiles (a b r : Z) (l : list (Z * Z)) : Prop :=
  match l with
  | [] => b <= a
  | c :: l' => fst c = a /\ snd c = a + r /\ a < b /\ tiles (a + r) b r l'
  end.
Definition on (c : Z * Z) (t : Z) : Prop := fst c <= t < snd c.

(** The number in the name of a paragraph. *)
Definition numbered (p : par) (n : Z) : Prop :=
  exists d, pr_id p = ("sub" ++ d)%string /\ all_digits d = true /\ d <> ""%string /\ digits_val d 0 = n.
(** The paragraph of a cue as generated; and as sent by a session whose time is
    [off] seconds ahead of the content: the visible text is the UTC time. *)
Definition says (lang : string) (c : Z * Z) (p : par) : Prop :=
  bstr (pr_begin p) = clock_ms (fst c) /\ bstr (pr_end p) = clock_ms (snd c) /\ numbered p (fst c) /\
  bstr (pr_text p) = bstr lang ++ bstr " : " ++ clock_ms (fst c).
Definition says_live (lang : string) (off : Z) (c : Z * Z) (p : par) : Prop :=
  bstr (pr_begin p) = clock_ms (fst c + 1000 * off) /\ bstr (pr_end p) = clock_ms (snd c + 1000 * off) /\
  numbered p (fst c) /\
  bstr (pr_text p) = bstr lang ++ bstr " : UTC = " ++ bstr (make_timestamp ((fst c + 1000 * off) / 1000)).

(** Three small letters. *)
Definition small (x : Z) : Prop := 97 <= x <= 122.
Definition code (lang : string) : Prop := exists a b c, bstr lang = [a; b; c] /\ small a /\ small b /\ small c.
