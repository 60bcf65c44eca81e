(** Vocabulary of property C78: the init segments that boxes.py can write. *)
From Verif Require Import Base BytesModel BoxSpec ChunkModel BoxesModel BoxesSpec.
Open Scope Z_scope.

(** A track apart from id, time scale and duration *)
Inductive codec :=
| H264 (width height profile compat level : Z) (sps pps : bytes)
| AAC (a : audio_info)
| AC3 (name : string) (a : audio_info)
| WebVTT (lang : string).
Definition moov_of (c : codec) (m : media_info) : result wbox :=
  match c with
  | H264 w h pr co le sps pps => create_moov_h264 m w h pr co le sps pps
  | AAC a => create_moov_mp4a m a
  | AC3 name a => create_moov_ac3 name m a
  | WebVTT lang => create_moov_mp4s m lang
  end.
(** ISO/IEC 14496-12 12.1.1, 12.2.1, 12.5.1 *)
Definition handler_of (c : codec) : bytes :=
  match c with H264 _ _ _ _ _ _ _ => bstr "vide" | AAC _ => bstr "soun" | AC3 _ _ => bstr "soun" | WebVTT _ => bstr "text" end.
(** What is given as bytes are boxes. *)
Definition codec_ok (c : codec) : Prop :=
  match c with AAC a => complete (ai_specific a) | AC3 _ a => complete (ai_specific a) | _ => True end.
(** [init_file c m out]: out is the init segment. *)
Definition init_file (c : codec) (m : media_info) (out : bytes) : Prop :=
  exists b f o, moov_of c m = Ok b /\ serialize create_ftyp = Ok f /\ serialize b = Ok o /\ blen o < 4294967296 /\ out = f ++ o.
(** The same track without a duration *)
Definition no_duration (m : media_info) : media_info := mk_media_info (mi_track m) (mi_timescale m) 0.
