(** Vocabulary of the analyzer's properties C30, C54, C58 and C66: content as a
    list of segments (number, start, duration). *)
From Coq Require Import Permutation.
From Verif Require Import Base BytesModel ConfigModel InitModel MediaModel TimelineModel VodModel.
Local Open Scope string_scope.
Open Scope Z_scope.

Definition seg := (Z * Z * Z)%type.
Definition s_nr (s : seg) : Z := fst (fst s).
Definition s_start (s : seg) : Z := snd (fst s).
Definition s_dur (s : seg) : Z := snd s.
Definition s_end (s : seg) : Z := s_start s + s_dur s.

(** Time scale and default sample duration in an init segment. *)
Definition track (init : bytes) (ts default : Z) : Prop :=
  exists out st a b c, init_filter init = Ok (out, st) /\ is_timescale st = ts /\ is_trex st = Some (a, default, b, c).
(** Start and duration that the segment filter finds in a media segment. *)
Definition timed (default : Z) (file : bytes) (s d : Z) : Prop :=
  exists out st, media_filter (plain_params default) file = Ok (out, st) /\ ms_tfdt st = Some s /\ ms_duration st = Some d.
(** The segments are numbered first, first + 1, ... *)
Fixpoint numbered (first : Z) (l : list seg) : Prop :=
  match l with [] => True | s :: r => s_nr s = first /\ numbered (first + 1) r end.
(** The segments of a representation: one for each file, with the timing in it. *)
Definition segments_of (r : vrep) (ts first : Z) (l : list seg) : Prop :=
  l <> [] /\ numbered first l /\ Permutation (map fst (vr_files r)) (map s_nr l) /\
  exists default, track (vr_init r) ts default /\
    Forall (fun s => exists file, In (s_nr s, file) (vr_files r) /\ timed default file (s_start s) (s_dur s)) l.

(** Contiguous segments: each takes some time, and the next starts at its end. *)
Fixpoint contiguous (l : list seg) : Prop :=
  match l with
  | [] => True
  | s :: r => 0 < s_dur s /\ contiguous r /\ match r with [] => True | n :: _ => s_start n = s_end s end
  end.
(** The segments of a table: number, start and duration. *)
Definition expand (e : entry) : list seg :=
  map (fun k => (e_nr e + Z.of_nat k, e_start e + Z.of_nat k * e_dur e, e_dur e)) (seq 0 (Z.to_nat (e_rep e + 1))).
Definition expansion (table : list entry) : list seg := flat_map expand table.

(** The fields of a table entry: two bytes for number and repeats, four for start
    and duration. *)
Definition in_range (e : entry) : Prop :=
  0 <= e_nr e < 65536 /\ 0 <= e_rep e < 65536 /\ 0 <= e_start e < 4294967296 /\ 0 <= e_dur e < 4294967296.

(** Every end of a segment is less than a tenth of a second away from the grid
    of [d] seconds that starts with the first segment. *)
Definition near_grid (ts d : Z) (l : list seg) : Prop :=
  forall s0 rest, l = s0 :: rest ->
  forall k s, nth_error l k = Some s -> 10 * Z.abs (s_start s0 + (Z.of_nat k + 1) * d * ts - s_end s) < ts.
(** The time from the start of the first to the end of the last. *)
Definition extent (l : list seg) (t : Z) : Prop :=
  exists s0 rest, l = s0 :: rest /\ t = s_end (last l s0) - s_start s0.

(** A representation id that the comma separated list of the configuration file
    can hold. *)
Definition plain_id (id : string) : Prop :=
  ~ In ","%char (list_ascii_of_string id) /\ strip id = id.

(** The analysis of a set: [m] is what is written for it, [lst] the number of the
    last segment of its first representation. *)
Definition set_result (d first : Z) (s : vset) (m : mdata) (lst : Z) : Prop :=
  md_type m = vs_type s /\ md_reps m = map vr_id (vs_reps s) /\
  (vs_timescale s <> 0 /\ d = vs_duration s / vs_timescale s) /\
  (exists r1 rs l, vs_reps s = r1 :: rs /\ segments_of r1 (md_timescale m) first l /\
     lst = first + Z.of_nat (List.length l) - 1 /\ extent l (md_total m) /\
     (contiguous l -> exists tab, read_table (md_table m) = Ok tab /\ expansion tab = l /\ Forall in_range tab)) /\
  Forall (fun r => exists l, segments_of r (md_timescale m) first l /\ near_grid (md_timescale m) d l) (vs_reps s).
Inductive results (d first : Z) : list vset -> list mdata -> list Z -> Prop :=
| res_nil : results d first [] [] []
| res_cons : forall s m n sets ms ns, set_result d first s m n -> results d first sets ms ns ->
    results d first (s :: sets) (m :: ms) (n :: ns).
(** File numbers come from digits. *)
Definition named (sets : list vset) : Prop :=
  Forall (fun s => Forall (fun r => Forall (fun f => 0 <= fst f) (vr_files r)) (vs_reps s)) sets.
