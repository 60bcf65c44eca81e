(** What a player does with a live manifest with number addressing (ISO/IEC
    23009-1): it reads addresses and times off the tree and requests segments.
    Independent of the server's functions, except the texts of numbers. *)
From Verif Require Import Base BytesModel BoxSpec MediaSpec ServeSpec MpdModel MpdSpec TimeSpec Mpd3Spec.
Local Open Scope string_scope.
Open Scope Z_scope.

(** Template substitution, 5.3.9.4.4: the text between two dollar signs is an
    identifier; two dollar signs in a row stand for one. *)
Definition identifier (id num t : string) : string :=
  if String.eqb t "RepresentationID" then id
  else if String.eqb t "Number" then num
  else if String.eqb t "" then "$" else "$" ++ t ++ "$".
Fixpoint fill_parts (id num : string) (inside : bool) (l : list string) : string :=
  match l with
  | [] => ""
  | t :: r => (if inside then identifier id num t else t) ++ fill_parts id num (negb inside) r
  end.
Definition fill (id num template : string) : string := fill_parts id num false (split_all "$" template).

(** What a player knows about one Representation: all times in seconds. *)
Record view := mk_view {
  vw_base : string;           (* BaseURL *)
  vw_early : Q;               (* BaseURL@availabilityTimeOffset, 0 when absent *)
  vw_ast : Z;                 (* availability start time *)
  vw_depth : option Z;        (* time shift buffer depth, unlimited when absent *)
  vw_length : option Z;       (* media presentation duration, open when absent *)
  vw_period : Z;              (* Period@start *)
  vw_id : string;             (* Representation@id *)
  vw_media : string;          (* SegmentTemplate@media *)
  vw_init : string;           (* SegmentTemplate@initialization *)
  vw_number : Z;              (* SegmentTemplate@startNumber, 1 when absent *)
  vw_seconds : Z;             (* SegmentTemplate@duration over @timescale *)
  vw_offset : Q               (* SegmentTemplate@presentationTimeOffset over @timescale *)
}.
Definition utc_text (s : string) (t : Z) : Prop :=
  exists y m d hh mi ss, read_timestamp s = Some (y, m, d, hh, mi, ss) /\ valid_reading y m d hh mi ss /\ instant y m d hh mi ss = t.
Definition int_or (k : string) (default : Z) (x : xml) (z : Z) : Prop :=
  match get k x with None => z = default | Some s => py_int s = Ok z end.
Definition opt_duration (k : string) (x : xml) (o : option Z) : Prop :=
  match get k x with None => o = None | Some s => exists z, read_duration s = Some z /\ o = Some z end.
(** A decimal number: an integer, or two integers around a point. *)
Definition read_decimal (s : string) : option Q :=
  match split_first "." s with
  | None => match py_int s with Ok z => Some (inject_Z z) | Err _ => None end
  | Some (a, b) => match py_int a, py_int b with
                   | Ok x, Ok y => Some (inject_Z x + inject_Z y / inject_Z (10 ^ Z.of_nat (String.length b)))%Q
                   | _, _ => None
                   end
  end.
Definition early_of (B : xml) (q : Q) : Prop :=
  match get "availabilityTimeOffset" B with None => q = 0%Q | Some s => read_decimal s = Some q end.
Inductive sees (x : xml) : view -> Prop :=
| sees_intro : forall B P A T R early ast_s ast depth len ps_s ps id media init num dur scale secs pto,
    children "BaseURL" x = [B] -> early_of B early ->
    get "availabilityStartTime" x = Some ast_s -> utc_text ast_s ast ->
    opt_duration "timeShiftBufferDepth" x depth -> opt_duration "mediaPresentationDuration" x len ->
    In P (children "Period" x) -> get "start" P = Some ps_s -> read_duration ps_s = Some ps ->
    In A (children "AdaptationSet" P) -> In R (children "Representation" A) -> get "id" R = Some id ->
    In T (children "SegmentTemplate" A) -> get "media" T = Some media -> get "initialization" T = Some init ->
    int_or "startNumber" 1 T num -> int_attr "duration" T = Some dur -> int_or "timescale" 1 T scale ->
    0 < scale -> dur = secs * scale -> int_or "presentationTimeOffset" 0 T pto ->
    sees x (mk_view (x_text B) early ast depth len ps id media init num secs (inject_Z pto / inject_Z scale)).

(** Segment [n] is complete at [complete_at v n]; it may be requested from then
    on, or as much earlier as the manifest says, for its own duration and the
    time shift buffer, and it must begin before the presentation ends. *)
Definition complete_at (v : view) (n : Z) : Z := vw_ast v + vw_period v + (n - vw_number v + 1) * vw_seconds v.
Definition may_request (v : view) (n : Z) (t : Q) : Prop :=
  (inject_Z (complete_at v n) - vw_early v <= t)%Q /\
  (forall b, vw_depth v = Some b -> (t <= inject_Z (complete_at v n + vw_seconds v + b))%Q) /\
  (forall m, vw_length v = Some m -> vw_period v + (n - vw_number v) * vw_seconds v < m).
Definition media_url (v : view) (n : Z) : string := vw_base v ++ fill (vw_id v) (print_Z n) (vw_media v).
Definition init_url (v : view) : string := vw_base v ++ fill (vw_id v) "" (vw_init v).

(** Presentation time of segment [n] in ticks of the track. *)
Definition presented (v : view) (n scale : Z) : Z := (vw_period v + (n - vw_number v) * vw_seconds v) * scale.
(** The decode times that the movie fragments of a segment state. *)
Definition tfdts (l : list box) : list bytes :=
  flat_map (fun b => if bytes_eqb (btype b) (bstr "moof")
                     then map snd (filter (fun x => bytes_eqb (fst x) (bstr "tfdt")) (leaves b)) else []) l.
Definition decodes (l : list box) (ts : list Z) : Prop := Forall2 decode_time (tfdts l) ts.
