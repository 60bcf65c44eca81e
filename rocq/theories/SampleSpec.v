(** Vocabulary of property C84: what a player gets out of the replies. *)
From Verif Require Import Base BytesModel BoxSpec ChunkSpec.
From Verif Require MediaSpec.
Open Scope Z_scope.

(** The usual shape of a stored media segment: the media data is in the mdat box
    right after moof and is found from the start of moof (data offset in trun,
    no base offset), and the fragment header has one tfdt and no styp or sidx. *)
Record media_follows (d : track_defaults) (f : frag) : Prop := {
  mf_boxes : Forall MediaSpec.plain (f_a1 f ++ f_a2 f ++ f_k1 f ++ f_k2 f ++ f_k3 f ++ f_k4 f ++ f_a3 f);
  mf_base : th_base (f_head f) = None;
  mf_media : exists m rest o, f_post f = Leaf (bstr "mdat") m :: rest /\ rn_offset (f_run f) = Some o /\
    blen (enc (f_moof f)) + 8 <= o /\ o + media_len d f <= blen (enc (f_moof f)) + 8 + blen m
}.
(** The sample, so many ticks later. *)
Definition later (s : Z) (m : media_sample) : media_sample :=
  mk_media_sample (ms_data m) (ms_time m + s) (ms_dur m) (ms_flags m) (ms_cto m).
(** [plays a b l]: the samples follow each other without gap from time a to time b. *)
Fixpoint plays (a b : Z) (l : list media_sample) : Prop :=
  match l with
  | [] => a = b
  | m :: r => ms_time m = a /\ plays (a + ms_dur m) b r
  end.
(** Stored segment k starts at T k; in the loop over N segments that lasts L
    ticks, segment n is on air at this time. *)
Definition on_air (T : Z -> Z) (N L n : Z) : Z := T (n mod N) + n / N * L.
