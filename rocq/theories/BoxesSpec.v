(** Vocabulary of property C77: bytes that are a sequence of complete boxes,
    in boxes too. *)
From Verif Require Import Base BytesModel BoxSpec ChunkModel BoxesModel.
Open Scope Z_scope.

(** Boxes with boxes in them, and the number of bytes after size and type that
    come before those (ISO/IEC 14496-12 8.1-8.8, 14496-14 5.6, 14496-15, 14496-30). *)
Definition parents : list (bytes * Z) :=
  map (fun t => (bstr t, 0)) ["moov"; "trak"; "mdia"; "minf"; "dinf"; "stbl"; "mvex"; "moof"; "traf"; "vttc"]%string ++
  [(bstr "dref", 8); (bstr "stsd", 8); (bstr "wvtt", 8)] ++
  map (fun t => (bstr t, 78)) ["avc1"; "avc3"; "hev1"; "hvc1"]%string ++
  map (fun t => (bstr t, 28)) ["mp4a"; "ac-3"; "ec-3"]%string.
Definition is_parent (t : bytes) (n : Z) : Prop := In (t, n) parents.
Definition is_leaf (t : bytes) : Prop := forall n, ~ is_parent t n.

(** Complete boxes one after the other: the size of each is that of its bytes. *)
Inductive complete : bytes -> Prop :=
| complete_nil : complete []
| complete_leaf : forall t p rest, blen t = 4 -> is_leaf t -> 8 + blen p < 4294967296 -> complete rest ->
    complete (be32 (8 + blen p) ++ t ++ p ++ rest)
| complete_parent : forall t n head kids rest, is_parent t n -> blen head = n -> 8 + n + blen kids < 4294967296 ->
    complete kids -> complete rest -> complete (be32 (8 + n + blen kids) ++ t ++ head ++ kids ++ rest).

(** What a caller has to see to.  Sample entries have the types of their kind, a
    container has a name of a container; what is given as bytes has the length
    the box is made for, and the auxiliary data of an audio entry are boxes. *)
Definition type_for (n : Z) (t : bytes) : Prop := blen t = 4 /\ is_parent t n.
Definition with_subsamples (s : senc_sample) : Prop := exists x l, se_subsamples s = Some (x :: l).
Definition senc_uniform (l : list senc_sample) : Prop :=
  Forall with_subsamples l \/ Forall (fun s => ~ with_subsamples s) l.
Fixpoint proper (b : wbox) : Prop :=
  match b with
  | W_sequence l => (fix go l := match l with [] => True | k :: r => proper k /\ go r end) l
  | W_container name l => type_for 0 name /\ (fix go l := match l with [] => True | k :: r => proper k /\ go r end) l
  | W_stsd l => (fix go l := match l with [] => True | k :: r => proper k /\ go r end) l
  | W_hdlr type _ => blen type = 4
  | W_visual coding _ _ avcc => type_for 78 coding /\ proper avcc
  | W_audio coding _ _ _ esds => type_for 28 coding /\ complete esds
  | W_sgpd _ l => Forall (fun g => blen (sg_kid g) = 16) l
  | W_senc iv l => iv = 8 /\ senc_uniform l
  | W_sidx _ _ _ version _ => version = 0 \/ version = 1
  | _ => True
  end.
(** The data of the encryptor for all samples, with subsamples for all or none *)
Definition aux_ok (aux : option (list senc_sample)) : Prop :=
  match aux with None => True | Some l => senc_uniform l end.

(** All boxes that go into init segments *)
Inductive init_box : wbox -> Prop :=
| ib_ftyp : init_box create_ftyp
| ib_styp : init_box create_styp
| ib_h264 : forall m w h pr co le sps pps b, create_moov_h264 m w h pr co le sps pps = Ok b -> init_box b
| ib_hevc : forall m w h vps sps pps b, create_moov_hevc m w h vps sps pps = Ok b -> init_box b
| ib_mp4a : forall m a b, complete (ai_specific a) -> create_moov_mp4a m a = Ok b -> init_box b
| ib_ac3 : forall codec m a b, complete (ai_specific a) -> create_moov_ac3 codec m a = Ok b -> init_box b
| ib_mp4s : forall m lang b, create_moov_mp4s m lang = Ok b -> init_box b.
(** The size at the start *)
Definition announced (out : bytes) : Z := be_val (btake 4 out).
