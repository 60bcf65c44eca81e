(** When the samples of a run are shown, and what a table of random access
    points says (ISO/IEC 14496-12, 8.8.8 and 8.8.10). *)
From Verif Require Import Base BytesModel BoxSpec.
From Verif Require ChunkSpec.
Open Scope Z_scope.

(** ** Samples of a run: duration and composition offset *)
Fixpoint lasting (l : list (Z * Z)) : Z := match l with [] => 0 | (d, _) :: r => d + lasting r end.
(** [x] is when a sample of the run starts to be shown, or ends. *)
Definition begins (l : list (Z * Z)) (x : Z) : Prop :=
  exists before d c after, l = before ++ (d, c) :: after /\ x = lasting before + c.
Definition finishes (l : list (Z * Z)) (x : Z) : Prop :=
  exists before d c after, l = before ++ (d, c) :: after /\ x = lasting before + c + d.
Definition earliest (P : Z -> Prop) (x : Z) : Prop := P x /\ forall y, P y -> x <= y.
Definition latest (P : Z -> Prop) (x : Z) : Prop := P x /\ forall y, P y -> y <= x.
(** The samples of an encoded run; [default] is the duration of the track fragment or of
    the track. *)
Definition sample_of (default : Z) (e : ChunkSpec.entry) : Z * Z :=
  (match ChunkSpec.en_dur e with Some d => d | None => default end,
   match ChunkSpec.en_cto e with Some c => c | None => 0 end).
Definition samples_of (default : Z) (r : ChunkSpec.run) : list (Z * Z) :=
  map (sample_of default) (ChunkSpec.rn_entries r).
Definition run_box (r : ChunkSpec.run) : bytes :=
  be32 (8 + blen (ChunkSpec.run_payload r)) ++ bstr "trun" ++ ChunkSpec.run_payload r.
Definition lies (data : bytes) (o : Z) (box : bytes) : Prop :=
  exists before after, data = before ++ box ++ after /\ o = blen before.
(** Composition offsets that mean the same in version 0 and in version 1 *)
Definition small_offset (e : ChunkSpec.entry) : Prop :=
  match ChunkSpec.en_cto e with Some c => c < 2147483648 | None => True end.

(** ** Tables of random access points *)
Record point := mk_point { p_time : Z; p_moof : Z; p_traf : Z; p_trun : Z; p_sample : Z }.
Record access := mk_access {
  ac_version : Z; ac_flags : Z; ac_track : Z; ac_reserved : Z;
  ac_traf : Z; ac_trun : Z; ac_sample : Z; ac_points : list point
}.
Definition time_bytes (a : access) : nat := if ac_version a =? 0 then 4%nat else 8%nat.
(** A number of [size] + 1 bytes *)
Definition sized (size x : Z) : bytes := be_bytes (Z.to_nat (size + 1)) x.
Definition point_bytes (a : access) (p : point) : bytes :=
  be_bytes (time_bytes a) (p_time p) ++ be_bytes (time_bytes a) (p_moof p) ++
  sized (ac_traf a) (p_traf p) ++ sized (ac_trun a) (p_trun p) ++ sized (ac_sample a) (p_sample p).
Definition access_payload (a : access) : bytes :=
  be32 (ac_version a * 16777216 + ac_flags a) ++ be32 (ac_track a) ++
  be32 (ac_reserved a * 64 + ac_traf a * 16 + ac_trun a * 4 + ac_sample a) ++
  be32 (Z.of_nat (List.length (ac_points a))) ++ List.concat (map (point_bytes a) (ac_points a)).
Definition access_box (a : access) : bytes :=
  be32 (8 + blen (access_payload a)) ++ bstr "tfra" ++ access_payload a.
Definition fits (bytes_of : nat) (x : Z) : Prop := 0 <= x < 256 ^ Z.of_nat bytes_of.
Definition point_ok (a : access) (p : point) : Prop :=
  fits (time_bytes a) (p_time p) /\ fits (time_bytes a) (p_moof p) /\
  fits (Z.to_nat (ac_traf a + 1)) (p_traf p) /\ fits (Z.to_nat (ac_trun a + 1)) (p_trun p) /\
  fits (Z.to_nat (ac_sample a + 1)) (p_sample p).
Definition access_ok (a : access) : Prop :=
  0 <= ac_version a < 256 /\ 0 <= ac_flags a < 16777216 /\ 0 <= ac_track a < 4294967296 /\
  0 <= ac_reserved a < 67108864 /\
  0 <= ac_traf a < 4 /\ 0 <= ac_trun a < 4 /\ 0 <= ac_sample a < 4 /\
  Z.of_nat (List.length (ac_points a)) < 4294967296 /\ Forall (point_ok a) (ac_points a).

(** A point begins a fragment when the one before it is in another fragment. *)
Definition begins_fragment (pair : option Z * point) : bool :=
  match fst pair with None => true | Some before => negb (before =? p_moof (snd pair)) end.
Definition fragments (l : list point) : list point :=
  map snd (filter begins_fragment (combine (None :: map (fun p => Some (p_moof p)) l) l)).

(** The points of a table are in the order of time. *)
Definition ordered (l : list point) : Prop :=
  forall i j p q, (i < j)%nat -> nth_error l i = Some p -> nth_error l j = Some q ->
    p_time p < p_time q.
(** The last point that is not after a time *)
Definition last_until (l : list point) (t : Z) (p : point) : Prop :=
  exists before after, l = before ++ p :: after /\ p_time p <= t /\ Forall (fun q => t < p_time q) after.
(** A number that is in two bytes even if three are used for it *)
Definition narrow (size x : Z) : Prop := size = 2 -> x < 65536.

(** ** The box at the end of the tables, which says how long they are *)
Definition tail_box (version flags n : Z) : bytes :=
  be32 16 ++ bstr "mfro" ++ be32 (version * 16777216 + flags) ++ be32 n.
