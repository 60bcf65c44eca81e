(** What a movie fragment says about its samples (ISO/IEC 14496-12, 8.8), and
    what a division into chunks of a given duration is. *)
From Verif Require Import Base BytesModel BoxSpec.
From Verif Require MediaSpec.
Open Scope Z_scope.

(** ** Chunks *)
Section Chunking.
  Context {A : Type}.
  Variable dur : A -> Z.
  Fixpoint total (l : list A) : Z := match l with [] => 0 | a :: r => dur a + total r end.
  (** [parts] divide [l] into chunks with the nominal boundaries d, 2d, 3d ... *)
  Record chunking (d : Z) (l : list A) (parts : list (list A)) : Prop := {
    ck_same : List.concat parts = l;
    ck_some : Forall (fun p => p <> []) parts;
    (** every chunk but the last lasts at least until its boundary *)
    ck_long : forall a b, parts = a ++ b -> a <> [] -> b <> [] ->
      Z.of_nat (List.length a) * d <= total (List.concat a);
    (** a chunk starts at the first sample at or after each boundary *)
    ck_starts : forall k before s after, 1 <= k -> l = before ++ s :: after ->
      k * d <= total before -> (forall p q, before = p ++ q -> q <> [] -> total p < k * d) ->
      exists a b, parts = a ++ b /\ List.concat a = before /\ List.concat b = s :: after;
    (** with samples no longer than the chunk duration, chunk i has exactly
        the samples that start between its boundaries *)
    ck_window : (forall s, In s l -> 0 <= dur s <= d) ->
      forall a p b x s y, parts = a ++ p :: b -> p = x ++ s :: y ->
      Z.of_nat (List.length a) * d <= total (List.concat a ++ x) < (Z.of_nat (List.length a) + 1) * d
  }.
End Chunking.

(** ** Fragments *)
Definition opt32 (o : option Z) : bytes := match o with Some z => be32 z | None => [] end.
Definition opt64 (o : option Z) : bytes := match o with Some z => be64 z | None => [] end.
Definition opt_s32 (o : option Z) : bytes := match o with Some z => be32 (z mod 4294967296) | None => [] end.
Definition has (o : option Z) : bool := match o with Some _ => true | None => false end.
Definition within (lo hi : Z) (o : option Z) : Prop := match o with Some z => lo <= z < hi | None => True end.
Definition u32 (o : option Z) : Prop := within 0 4294967296 o.

(** Track fragment header: flags tell which fields there are. *)
Record head := mk_head {
  th_version : Z; th_flags : Z; th_track : Z;
  th_base : option Z; th_desc : option Z; th_dur : option Z; th_size : option Z; th_sflags : option Z
}.
Definition head_payload (h : head) : bytes :=
  be32 (th_version h * 16777216 + th_flags h) ++ be32 (th_track h) ++
  opt64 (th_base h) ++ opt32 (th_desc h) ++ opt32 (th_dur h) ++ opt32 (th_size h) ++ opt32 (th_sflags h).
Definition head_ok (h : head) : Prop :=
  0 <= th_version h < 256 /\ 0 <= th_flags h < 16777216 /\ 0 <= th_track h < 4294967296 /\
  within 0 18446744073709551616 (th_base h) /\ u32 (th_desc h) /\ u32 (th_dur h) /\ u32 (th_size h) /\ u32 (th_sflags h) /\
  Z.testbit (th_flags h) 0 = has (th_base h) /\ Z.testbit (th_flags h) 1 = has (th_desc h) /\
  Z.testbit (th_flags h) 3 = has (th_dur h) /\ Z.testbit (th_flags h) 4 = has (th_size h) /\
  Z.testbit (th_flags h) 5 = has (th_sflags h).

(** Track run: the composition offset is signed in version 1 only. *)
Record entry := mk_entry { en_dur : option Z; en_size : option Z; en_flags : option Z; en_cto : option Z }.
Record run := mk_run { rn_version : Z; rn_flags : Z; rn_offset : option Z; rn_first : option Z; rn_entries : list entry }.
Definition entry_payload (e : entry) : bytes :=
  opt32 (en_dur e) ++ opt32 (en_size e) ++ opt32 (en_flags e) ++ opt_s32 (en_cto e).
Definition run_payload (r : run) : bytes :=
  be32 (rn_version r * 16777216 + rn_flags r) ++ be32 (Z.of_nat (List.length (rn_entries r))) ++
  opt_s32 (rn_offset r) ++ opt32 (rn_first r) ++ List.concat (map entry_payload (rn_entries r)).
Definition entry_ok (version flags : Z) (e : entry) : Prop :=
  u32 (en_dur e) /\ u32 (en_size e) /\ u32 (en_flags e) /\
  (if version =? 0 then u32 (en_cto e) else within (-2147483648) 2147483648 (en_cto e)) /\
  Z.testbit flags 8 = has (en_dur e) /\ Z.testbit flags 9 = has (en_size e) /\
  Z.testbit flags 10 = has (en_flags e) /\ Z.testbit flags 11 = has (en_cto e).
Definition run_ok (r : run) : Prop :=
  0 <= rn_version r < 256 /\ 0 <= rn_flags r < 16777216 /\
  within (-2147483648) 2147483648 (rn_offset r) /\ u32 (rn_first r) /\
  Z.testbit (rn_flags r) 0 = has (rn_offset r) /\ Z.testbit (rn_flags r) 2 = has (rn_first r) /\
  0 < Z.of_nat (List.length (rn_entries r)) < 4294967296 /\
  Forall (entry_ok (rn_version r) (rn_flags r)) (rn_entries r).

(** A segment with one movie fragment of one track: the boxes around the ones
    that matter are leaves of other types. *)
Record frag := mk_frag {
  f_pre : list box; f_a1 : list box; f_vf : bytes; f_nr : Z; f_a2 : list box;
  f_k1 : list box; f_head : head; f_k2 : list box; f_tfdt : bytes; f_k3 : list box; f_run : run; f_k4 : list box;
  f_a3 : list box; f_post : list box
}.
Definition f_traf (f : frag) : box :=
  Node (bstr "traf") (f_k1 f ++ Leaf (bstr "tfhd") (head_payload (f_head f)) :: f_k2 f ++
    Leaf (bstr "tfdt") (f_tfdt f) :: f_k3 f ++ Leaf (bstr "trun") (run_payload (f_run f)) :: f_k4 f).
Definition f_moof (f : frag) : box :=
  Node (bstr "moof") (f_a1 f ++ Leaf (bstr "mfhd") (f_vf f ++ be32 (f_nr f)) :: f_a2 f ++ f_traf f :: f_a3 f).
Definition f_boxes (f : frag) : list box := f_pre f ++ f_moof f :: f_post f.
(** Box types that are opened. *)
Definition opened : list bytes :=
  [bstr "root"; bstr "moov"; bstr "moof"; bstr "trak"; bstr "traf"; bstr "tfad"; bstr "mvex"; bstr "mdia"; bstr "minf";
   bstr "dinf"; bstr "stbl"; bstr "mfra"; bstr "udta"; bstr "stsd"; bstr "sinf"; bstr "schi"; bstr "encv"; bstr "enca";
   bstr "avc1"; bstr "hev1"; bstr "hvc1"; bstr "mp4a"; bstr "ac_3"; bstr "ec_3"; bstr "vttc"].
Definition inert (b : box) : Prop :=
  match b with
  | Leaf t _ => ~ In t [bstr "mfhd"; bstr "tfhd"; bstr "tfdt"; bstr "trun"] /\ utf8_ok t = true
  | Node _ _ => False
  end.
Definition frag_ok (f : frag) : Prop :=
  boxes_ok opened any_payload (f_boxes f) /\
  Forall inert (f_pre f ++ f_a1 f ++ f_a2 f ++ f_k1 f ++ f_k2 f ++ f_k3 f ++ f_k4 f ++ f_a3 f ++ f_post f) /\
  blen (f_vf f) = 4 /\ 0 <= f_nr f < 4294967296 /\ head_ok (f_head f) /\ run_ok (f_run f).

(** The samples. *)
Record media_sample := mk_media_sample { ms_data : bytes; ms_time : Z; ms_dur : Z; ms_flags : Z; ms_cto : Z }.
Definition either (o : option Z) (dflt : Z) : Z := match o with Some z => z | None => dflt end.
(** Default duration, size and flags of the track (trex). *)
Record track_defaults := mk_defaults { td_dur : Z; td_size : Z; td_flags : Z }.
Definition entry_dur (d : track_defaults) (h : head) (e : entry) : Z := either (en_dur e) (either (th_dur h) (td_dur d)).
Definition entry_size (d : track_defaults) (h : head) (e : entry) : Z := either (en_size e) (either (th_size h) (td_size d)).
(** [first]: flags for the first sample of the run. *)
Definition entry_flags (d : track_defaults) (h : head) (first : option Z) (e : entry) : Z :=
  either (en_flags e) (either first (either (th_sflags h) (td_flags d))).
Fixpoint entries_samples (d : track_defaults) (h : head) (file : bytes) (first : option Z) (l : list entry) (time pos : Z) : list media_sample :=
  match l with
  | [] => []
  | e :: r =>
      mk_media_sample (bslice pos (pos + entry_size d h e) file) time (entry_dur d h e) (entry_flags d h first e) (either (en_cto e) 0)
      :: entries_samples d h file None r (time + entry_dur d h e) (pos + entry_size d h e)
  end.
(** Where the media data starts: base offset (the start of moof if there is
    none) and data offset. *)
Definition media_at (f : frag) : Z :=
  either (th_base (f_head f)) (blen (encs (f_pre f))) + either (rn_offset (f_run f)) 0.
Definition media_len (d : track_defaults) (f : frag) : Z :=
  fold_right (fun e a => entry_size d (f_head f) e + a) 0 (rn_entries (f_run f)).
Definition frag_samples (d : track_defaults) (f : frag) (time : Z) : list media_sample :=
  entries_samples d (f_head f) (encs (f_boxes f)) (rn_first (f_run f)) (rn_entries (f_run f)) time (media_at f).
(** [fragment_says d file nr track l]: the file is a segment with a fragment
    with that number and track and those samples, all of them in the file. *)
Definition fragment_is (f : frag) (d : track_defaults) (file : bytes) (nr track : Z) (l : list media_sample) : Prop :=
  exists time, file = encs (f_boxes f) /\ frag_ok f /\ f_nr f = nr /\ th_track (f_head f) = track /\
    MediaSpec.decode_time (f_tfdt f) time /\
    0 <= media_at f /\ 0 <= media_len d f /\ media_at f + media_len d f <= blen file /\
    l = frag_samples d f time.
Definition fragment_says (d : track_defaults) (file : bytes) (nr track : Z) (l : list media_sample) : Prop :=
  exists f, fragment_is f d file nr track l.
(** sample_is_non_sync_sample (8.6.4.3 of 14496-12) *)
Definition is_sync (m : media_sample) : Prop := Z.testbit (ms_flags m) 16 = false.
Definition same_sample (a b : media_sample) : Prop :=
  ms_data a = ms_data b /\ ms_time a = ms_time b /\ ms_dur a = ms_dur b /\ ms_cto a = ms_cto b.

(** ** Pacing *)
(** [paced ready times clock schedule]: the i-th thing is sent when it is
    ready, as soon as the process got to it and to waking up ([schedule]: how
    long each took). *)
Fixpoint paced (ready : Z -> Q) (i : Z) (clock : Q) (schedule : list (Q * Q)) (times : list Q) : Prop :=
  match schedule, times with
  | [], [] => True
  | (pause, late) :: s, t :: ts =>
      (ready i <= t)%Q /\ (clock <= t)%Q /\
      ((t <= clock + pause)%Q \/ (t <= ready i + late)%Q) /\
      paced ready (i + 1) t s ts
  | _, _ => False
  end.
Definition forward (schedule : list (Q * Q)) : Prop := Forall (fun p => (0 <= fst p /\ 0 <= snd p)%Q) schedule.
