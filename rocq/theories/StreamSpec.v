(** What a player does with a live manifest with a SegmentTimeline (ISO/IEC
    23009-1): it reads the list of segments off the tree and requests them by
    number or by time.  Independent of the server's functions, except the texts
    of numbers. *)
From Verif Require Import Base StrModel MpdModel MpdSpec TimeSpec Mpd3Spec PlayerSpec.
Local Open Scope string_scope.
Open Scope Z_scope.

(** Template substitution, 5.3.9.4.4, with the identifier Time. *)
Definition timed_identifier (id num time t : string) : string :=
  if String.eqb t "Time" then time else identifier id num t.
Fixpoint timed_parts (id num time : string) (inside : bool) (l : list string) : string :=
  match l with
  | [] => ""
  | t :: r => (if inside then timed_identifier id num time t else t) ++ timed_parts id num time (negb inside) r
  end.
Definition timed_fill (id num time template : string) : string := timed_parts id num time false (split_all "$" template).

(** What a player knows about one Representation. *)
Record listing := mk_listing {
  ls_base : string;           (* BaseURL *)
  ls_ast : Z;                 (* availability start time *)
  ls_depth : option Z;        (* time shift buffer depth, unlimited when absent *)
  ls_period : Z;              (* Period@start *)
  ls_type : string;           (* AdaptationSet@contentType *)
  ls_id : string;             (* Representation@id *)
  ls_media : string;          (* SegmentTemplate@media *)
  ls_number : Z;              (* SegmentTemplate@startNumber, 1 when absent *)
  ls_scale : Z;               (* SegmentTemplate@timescale *)
  ls_offset : Z;              (* SegmentTemplate@presentationTimeOffset, in ticks *)
  ls_segments : list (Z * Z)  (* times and durations in ticks *)
}.
(** The Representations of one Period, then of all. *)
Inductive lists_in (x P : xml) : listing -> Prop :=
| lists_intro : forall B A T R ast_s ast depth ps_s ps ct id media num scale pto l,
    children "BaseURL" x = [B] ->
    get "availabilityStartTime" x = Some ast_s -> utc_text ast_s ast ->
    opt_duration "timeShiftBufferDepth" x depth ->
    get "start" P = Some ps_s -> read_duration ps_s = Some ps ->
    In A (children "AdaptationSet" P) -> get "contentType" A = Some ct ->
    In R (children "Representation" A) -> get "id" R = Some id ->
    In T (children "SegmentTemplate" A) -> get "media" T = Some media ->
    int_or "startNumber" 1 T num -> int_or "timescale" 1 T scale -> int_or "presentationTimeOffset" 0 T pto ->
    client_timeline T = Some l ->
    lists_in x P (mk_listing (x_text B) ast depth ps ct id media num scale pto l).
Definition lists (x : xml) (v : listing) : Prop := exists P, In P (children "Period" x) /\ lists_in x P v.

(** The address of segment [i] of the list, which has time [t]. *)
Definition listed_url (v : listing) (i t : Z) : string :=
  ls_base v ++ timed_fill (ls_id v) (print_Z (ls_number v + i)) (print_Z t) (ls_media v).
(** A segment in the list may be requested until its end leaves the time shift
    buffer. *)
Definition leaves_at (v : listing) (t d b : Z) : Q :=
  (inject_Z (ls_ast v + ls_period v + b) + inject_Z (t + d - ls_offset v) / inject_Z (ls_scale v))%Q.
Definition still_there (v : listing) (t d : Z) (at_ : Q) : Prop :=
  forall b, ls_depth v = Some b -> (at_ <= leaves_at v t d b)%Q.
(** End of a segment in ticks after the start of its Period. *)
Definition ends_after (v : listing) (t d : Z) : Z := t + d - ls_offset v.
Definition starts_at (P : xml) (z : Z) : Prop := exists s, get "start" P = Some s /\ read_duration s = Some z.
