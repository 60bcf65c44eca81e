(** Vocabulary of property C76: a VoD manifest and the files it names. *)
From Verif Require Import Base BytesModel MpdModel VodModel SourceModel HttpModel Mpd2Spec.
Local Open Scope string_scope.
Open Scope Z_scope.

Definition lacks_char (c : ascii) (s : string) : Prop := ~ In c (list_ascii_of_string s).
(** A DASH template: text, then identifiers between dollar signs, each followed by
    text. *)
Record template := mk_template { tm_text : string; tm_parts : list (string * string) }.
Fixpoint fill (f : string -> string) (l : list (string * string)) : string :=
  match l with [] => "" | (k, t) :: r => f k ++ t ++ fill f r end.
Definition written (t : template) : string := tm_text t ++ fill (fun k => "$" ++ k ++ "$") (tm_parts t).
(** What it stands for (ISO/IEC 23009-1, 5.3.9.4.4); [$$] is a dollar sign. *)
Definition identifier (id bandwidth number : string) (k : string) : string :=
  if String.eqb k "RepresentationID" then id else if String.eqb k "Bandwidth" then bandwidth
  else if String.eqb k "Number" then number else if String.eqb k "" then "$" else "?".
Definition meant (id bandwidth number : string) (t : template) : string :=
  tm_text t ++ fill (identifier id bandwidth number) (tm_parts t).
(** Templates with the representation id and, in media templates, one number.  A
    text is not one of the identifiers. *)
Definition plain_text (s : string) : Prop := lacks_char "$" s /\ s <> "RepresentationID".
Definition plain_init (t : template) : Prop :=
  lacks_char "$" (tm_text t) /\ Forall (fun p => fst p = "RepresentationID" /\ plain_text (snd p)) (tm_parts t).
Definition plain_media (t : template) : Prop :=
  lacks_char "$" (tm_text t) /\ exists a x b, tm_parts t = (a ++ ("Number", x) :: b)%list /\ plain_text x /\
    Forall (fun p => fst p = "RepresentationID" /\ plain_text (snd p)) a /\
    Forall (fun p => fst p = "RepresentationID" /\ plain_text (snd p)) b.

(** An AdaptationSet of the manifest: content type, duration, timescale and start
    number, templates, id and bandwidth of the representations. *)
Record listed_set := mk_listed {
  ls_type : string; ls_ticks : Z; ls_scale : Z; ls_start : Z;
  ls_init : template; ls_media : template;
  ls_reps : list (string * string)
}.
Definition number_is (v : option string) (n : Z) : Prop := exists s, v = Some s /\ s <> "" /\ py_int s = Ok n.
Definition set_says (x : xml) (s : listed_set) : Prop :=
  get "contentType" x = Some (ls_type s) /\
  (exists t, filter (is_tag "SegmentTemplate") (x_kids x) = [t] /\
     get "initialization" t = Some (written (ls_init s)) /\ get "media" t = Some (written (ls_media s)) /\
     number_is (get "duration" t) (ls_ticks s) /\ number_is (get "startNumber" t) (ls_start s) /\
     (get "timescale" t = None /\ ls_scale s = 1 \/ number_is (get "timescale" t) (ls_scale s))) /\
  Forall2 (fun r p => get "id" r = Some (fst p) /\ get "bandwidth" r = Some (snd p))
    (filter (is_tag "Representation") (x_kids x)) (ls_reps s).
(** The manifest: one Period or several, with these sets in all. *)
Definition manifest_says (root : xml) (sets : list listed_set) : Prop :=
  x_tag root = "MPD" /\
  (get "mediaPresentationDuration" root = None \/
   exists d n, get "mediaPresentationDuration" root = Some d /\ TimeModel.iso_duration_to_seconds d = Ok n) /\
  Forall2 set_says (flat_map (fun p => filter (is_tag "AdaptationSet") (x_kids p)) (filter (is_tag "Period") (x_kids root))) sets.

(** Files. *)
Definition directory (d : string) : Prop := d <> "" /\ forall h, d <> h ++ "/".
Definition contents (fs : filesystem) (d : string) (l : list (string * bytes)) : Prop :=
  directory d /\ fs d = Some l /\ NoDup (map fst l).
(** The file that a representation's init template names. *)
Definition init_file (fs : filesystem) (base : string) (t : template) (id bandwidth : string) (b : bytes) : Prop :=
  exists d n l, base ++ "/" ++ meant id bandwidth "" t = d ++ "/" ++ n /\ no_slash n /\ contents fs d l /\ In (n, b) l.
(** The files of the segments lie in one directory with contents [l] and are called [pre], number,
    [post]. *)
Definition media_files (fs : filesystem) (base : string) (t : template) (id bandwidth : string)
    (pre post : string) (l : list (string * bytes)) : Prop :=
  exists d, (forall number, base ++ "/" ++ meant id bandwidth number t = d ++ "/" ++ pre ++ number ++ post) /\
    no_slash pre /\ no_slash post /\ contents fs d l /\
    (forall c, In c ["\"; "^"; "*"; "+"; "?"; "{"; "}"; "["; "]"; "|"; "("; ")"; "$"; "%"]%char ->
       lacks_char c pre /\ lacks_char c post) /\ lacks_char "%" d.
Definition digits (s : string) : Prop :=
  s <> "" /\ forall c, In c (list_ascii_of_string s) -> (48 <= nat_of_ascii c <= 57)%nat.
(** A file whose name begins like the name of a segment is a segment, with its
    number in plain decimal digits. *)
Definition tidy (pre post : string) (l : list (string * bytes)) : Prop :=
  forall ds rest b, digits ds -> In (pre ++ ds ++ post ++ rest, b) l -> rest = "" /\ exists n, 0 <= n /\ ds = print_Z n.

(** What the manifest says of a representation, and the representation with its
    files. *)
Definition rep_holds (fs : filesystem) (base : string) (s : listed_set) (p : string * string) (r : vrep) : Prop :=
  vr_id r = fst p /\ init_file fs base (ls_init s) (fst p) (snd p) (vr_init r) /\
  exists pre post l, media_files fs base (ls_media s) (fst p) (snd p) pre post l /\ tidy pre post l /\
    NoDup (map fst (vr_files r)) /\
    forall n b, In (n, b) (vr_files r) <-> 0 <= n /\ In (pre ++ print_Z n ++ post, b) l.
Definition set_holds (fs : filesystem) (base : string) (s : listed_set) (v : vset) : Prop :=
  vs_type v = ls_type s /\ vs_duration v = ls_ticks s /\ vs_timescale v = ls_scale s /\ vs_start v = ls_start s /\
  Forall2 (rep_holds fs base s) (ls_reps s) (vs_reps v).
(** A representation that has its files, and nothing else that looks like one. *)
Definition rep_there (fs : filesystem) (base : string) (s : listed_set) (p : string * string) : Prop :=
  lacks_char "$" (fst p) /\ (exists b, init_file fs base (ls_init s) (fst p) (snd p) b) /\
  exists pre post l, media_files fs base (ls_media s) (fst p) (snd p) pre post l /\ tidy pre post l.
Definition relative (s : string) : Prop := forall r, s <> "/" ++ r.
Definition set_there (fs : filesystem) (base : string) (s : listed_set) : Prop :=
  plain_init (ls_init s) /\ plain_media (ls_media s) /\
  Forall (fun p => rep_there fs base s p /\ relative (meant (fst p) (snd p) "" (ls_init s)) /\
                   relative (meant (fst p) (snd p) "%d" (ls_media s))) (ls_reps s).
(** The server's media directory is this one. *)
Definition reads_from (s : HttpModel.site) (name : string) (fs : filesystem) (base : string) : Prop :=
  forall id n b, 0 <= n -> (HttpModel.st_files s name id n ".m4s" = Ok b <->
    exists l, contents fs (base ++ "/" ++ id) l /\ In (print_Z n ++ ".m4s", b) l).
