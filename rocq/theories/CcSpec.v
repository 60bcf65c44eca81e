(** What inserting captions in a video segment means (C51), without reference
    to the inserter. *)
From Verif Require Import Base BytesModel BoxSpec ChunkSpec.
From Verif Require MediaSpec.
From Coq Require Import Permutation.
Open Scope Z_scope.

(** A caption: the time in seconds and the CEA-608 words. *)
Definition cc : Type := (Q * list Z)%type.

(** The SEI NAL unit of a caption (ANSI/SCTE 128): user data registered by
    ITU-T T.35, country 0xb5, provider 0x0031, "GA94", then cc_data with the
    number of words, each word with its marker, validity and field bits; in the
    file it follows its length. *)
Definition word_bytes (field w : Z) : bytes := [251 + field; w / 256 mod 256; w mod 256].
Definition caption_sei (field : Z) (words : list Z) : bytes :=
  [181; 0; 49] ++ bstr "GA94" ++ [3; 192 + Z.of_nat (List.length words); 255] ++
  List.concat (map (word_bytes field) words) ++ [255].
Definition caption_nal (field : Z) (words : list Z) : bytes :=
  [102; 4; blen (caption_sei field words)] ++ caption_sei field words ++ [128].
Definition unit_bytes (nal : bytes) : bytes := be32 (blen nal) ++ nal.
Definition caption_bytes (field : Z) (l : list cc) : bytes :=
  List.concat (map (fun c => unit_bytes (caption_nal field (snd c))) l).

(** Samples of AVC video: NAL units, each after its length.  Types 1 to 5 are
    coded slices. *)
Definition units (nals : list bytes) : bytes := List.concat (map unit_bytes nals).
Definition nal_ok (nal : bytes) : Prop := nal <> [] /\ blen nal < 4294967296.
Definition nal_type (nal : bytes) : Z := hd 0 nal mod 32.
Definition video_sample (data : bytes) : Prop := exists nals, Forall nal_ok nals /\ data = units nals.
(** The captions stand before the first slice, after all NAL units before it. *)
Definition with_captions (field : Z) (l : list cc) (old new : bytes) : Prop :=
  (l = [] /\ new = old) \/
  exists before after, old = units before ++ units after /\
    Forall (fun n => 6 <= nal_type n) before /\
    match after with [] => True | n :: _ => nal_type n < 6 end /\
    new = units before ++ caption_bytes field l ++ units after.

(** Which captions belong to the time from [a] to [z], in ticks. *)
Definition shown (timescale a z : Z) (c : cc) : bool :=
  Qle_bool (inject_Z a / inject_Z timescale) (fst c) && negb (Qle_bool (inject_Z z / inject_Z timescale) (fst c)).
Definition captions_of (timescale : Z) (caps : list cc) (m : media_sample) : list cc :=
  filter (shown timescale (ms_time m) (ms_time m + ms_dur m)) caps.

(** A sample and the sample with its captions. *)
Definition captioned (field timescale : Z) (caps : list cc) (old new : media_sample) : Prop :=
  ms_time new = ms_time old /\ ms_dur new = ms_dur old /\ ms_flags new = ms_flags old /\ ms_cto new = ms_cto old /\
  with_captions field (captions_of timescale caps old) (ms_data old) (ms_data new).

(** The segments that the theorem is about: every sample has its duration and
    size in the run, the run has a data offset from the start of moof and no
    flags of its own for the first sample, and one mdat box has the media. *)
Definition plain_run (f : frag) : Prop :=
  th_base (f_head f) = None /\ rn_offset (f_run f) <> None /\ rn_first (f_run f) = None /\
  Forall (fun e => en_dur e <> None /\ en_size e <> None) (rn_entries (f_run f)).
Definition not_mdat (b : box) : Prop := btype b <> bstr "mdat".
Definition around (f : frag) : list box := f_a1 f ++ f_a2 f ++ f_k1 f ++ f_k2 f ++ f_k3 f ++ f_k4 f ++ f_a3 f.
Definition one_mdat (d : track_defaults) (f : frag) (mid : list box) (payload : bytes) (post : list box) : Prop :=
  f_post f = mid ++ Leaf (bstr "mdat") payload :: post /\
  Forall not_mdat (f_pre f ++ around f ++ mid ++ post) /\
  let start := blen (encs (f_pre f ++ f_moof f :: mid)) + 8 in
  start <= media_at f /\ media_at f + media_len d f <= start + blen payload.
Definition same_around (f g : frag) : Prop :=
  f_pre g = f_pre f /\ f_a1 g = f_a1 f /\ f_vf g = f_vf f /\ f_nr g = f_nr f /\ f_a2 g = f_a2 f /\ f_k1 g = f_k1 f /\
  f_head g = f_head f /\ f_k2 g = f_k2 f /\ f_tfdt g = f_tfdt f /\ f_k3 g = f_k3 f /\ f_k4 g = f_k4 f /\ f_a3 g = f_a3 f.
Definition seg_dur (l : list media_sample) : Z := fold_right (fun m a => ms_dur m + a) 0 l.
Definition added (field timescale : Z) (caps : list cc) (l : list media_sample) : Z :=
  fold_right (fun m a => blen (caption_bytes field (captions_of timescale caps m)) + a) 0 l.
