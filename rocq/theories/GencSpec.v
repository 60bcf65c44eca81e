(** How samples are encrypted: groups of samples in their order, each with its
    own values; samples after the last group have those of the track. *)
From Verif Require Import Base BytesModel BoxSpec HeadSpec ChunkModel ReadersModel GencModel.
Open Scope Z_scope.

Definition values : Type := Z * Z * bytes.
Definition spread (groups : list (Z * values)) : list values :=
  flat_map (fun g => repeat (snd g) (Z.to_nat (fst g))) groups.
Definition encryption (groups : list (Z * values)) (track : values) (samples i : Z) : values :=
  match nth_error (spread groups) (Z.to_nat i) with
  | Some v => v
  | None => if i <? samples then track else (0, 0, [])
  end.
(** The boxes of a fragment say this, entry by entry (see C80 for the readers of
    entries): group 0 is that of the track, others are described in sgpd. *)
Definition stands (data : bytes) (sgpd : option child) (tenc : option Z) (g : Z) (v : info) : Prop :=
  if g =? 0 then tenc_default data tenc = Ok v
  else exists s, sgpd = Some s /\ sgpd_entry data (ch_offset s) (ch_size s) (g - 1) = Ok v.
Fixpoint grouped (data : bytes) (sbgp : child) (sgpd : option child) (tenc : option Z) (i : Z) (groups : list (Z * values)) : Prop :=
  match groups with
  | [] => True
  | (c, v) :: r => 0 <= c /\ (exists g, group_entry data (ch_offset sbgp) (ch_size sbgp) i = Ok (c, g) /\ stands data sgpd tenc g v) /\
      grouped data sbgp sgpd tenc (i + 1) r
  end.
(** The box with the values of a track (ISO/IEC 23001-7): a reserved byte, the
    pattern (from version 1 on), flag, vector size, key id. *)
Definition tenc_box (v flags pattern e iv : Z) (kid : bytes) : bytes :=
  plain_box (bstr "tenc") (versioned v flags ++ [0; pattern; e; iv] ++ kid).
Definition tenc_proper (v flags pattern e iv : Z) (kid : bytes) : Prop :=
  fits 8 v /\ fits 24 flags /\ fits 8 pattern /\ (v = 0 -> pattern = 0) /\ fits 1 e /\ fits 7 iv /\ blen kid = 16.
