(** Multiplexed segments: what one gets from two segments of one track. *)
From Verif Require Import Base BytesModel BoxSpec InitSpec.
Open Scope Z_scope.

(** Boxes looked into in init segments, and the leaves of the file type and
    movie boxes (a track box is a leaf here). *)
Definition init_nodes : list bytes := [bstr "moov"; bstr "mvex"].
Definition init_leaves (l : list box) : list (bytes * bytes) :=
  flat_map (fun b => if bytes_eqb (btype b) (bstr "ftyp") || bytes_eqb (btype b) (bstr "moov") then leaves b else []) l.
Definition decodable (t p : bytes) : Prop := utf8_ok t = true.

(** The joint init segment. *)
Definition joint_init (ftyp mvhd trex1 trex2 trak1 trak2 : bytes) : list box :=
  [Leaf (bstr "ftyp") ftyp;
   Node (bstr "moov")
     [Leaf (bstr "mvhd") mvhd;
      Node (bstr "mvex") [Leaf (bstr "trex") trex1; Leaf (bstr "trex") trex2];
      Leaf (bstr "trak") trak1; Leaf (bstr "trak") trak2]].

(** A media segment with one fragment of one track: boxes before the movie
    fragment (a segment type box [styp], others [before] and [after] it), the
    movie fragment with header and track fragment, and the media data.  The
    track fragment has one run, with the flag for "data offset present", the
    sample count and the offset in its payload (8.8.8 of ISO/IEC 14496-12). *)
Record fragment := mk_fragment {
  fr_before : list box;
  fr_styp : bytes;
  fr_after : list box;
  fr_mfhd : bytes;
  fr_kids1 : list box;
  fr_version : Z;
  fr_flags : Z;
  fr_count : bytes;
  fr_offset : Z;
  fr_rest : bytes;
  fr_kids2 : list box;
  fr_mdat : bytes
}.
Definition run_payload (f : fragment) (off : Z) : bytes :=
  be32 (fr_version f * 16777216 + fr_flags f) ++ fr_count f ++ be32 off ++ fr_rest f.
(** The track fragment with a given data offset. *)
Definition traf_with (f : fragment) (off : Z) : box :=
  Node (bstr "traf") (fr_kids1 f ++ Leaf (bstr "trun") (run_payload f off) :: fr_kids2 f).
Definition before_moof (f : fragment) : list box :=
  fr_before f ++ Leaf (bstr "styp") (fr_styp f) :: fr_after f.
Definition seg_of (f : fragment) : list box :=
  before_moof f ++
  [Node (bstr "moof") [Leaf (bstr "mfhd") (fr_mfhd f); traf_with f (fr_offset f)]; Leaf (bstr "mdat") (fr_mdat f)].

Definition moof_nodes : list bytes := [bstr "moof"; bstr "traf"].
(** Box types with a role of their own. *)
Definition roles : list bytes :=
  [bstr "styp"; bstr "moof"; bstr "mdat"; bstr "mfhd"; bstr "traf"; bstr "trun"].
Definition fragment_ok (f : fragment) : Prop :=
  boxes_ok moof_nodes any_payload (seg_of f) /\
  Forall (fun b => ~ In (btype b) roles) (fr_before f ++ fr_after f ++ fr_kids1 f ++ fr_kids2 f) /\
  0 <= fr_version f < 256 /\ 0 <= fr_flags f < 16777216 /\ Z.odd (fr_flags f) = true /\
  blen (fr_count f) = 4 /\ 0 <= fr_offset f < 4294967296.

(** Position of the movie fragment, and of the media data in it. *)
Definition moof_at (f : fragment) : Z := blen (encs (before_moof f)).
Definition moof_len (f : fragment) : Z :=
  blen (enc (Node (bstr "moof") [Leaf (bstr "mfhd") (fr_mfhd f); traf_with f (fr_offset f)])).
(** The n bytes at the data offset lie in the media data of the segment. *)
Definition designates_media (f : fragment) (n : Z) : Prop :=
  moof_len f + 8 <= fr_offset f /\ 0 <= n /\ fr_offset f + n <= moof_len f + 8 + blen (fr_mdat f).

(** The joint media segment, with data offsets o1, o2. *)
Definition joint (a b : fragment) (o1 o2 : Z) : list box :=
  [Leaf (bstr "styp") (fr_styp a);
   Node (bstr "moof") [Leaf (bstr "mfhd") (fr_mfhd a); traf_with a o1; traf_with b o2];
   Leaf (bstr "mdat") (fr_mdat a ++ fr_mdat b)].
Definition joint_moof_at (a : fragment) : Z := blen (enc (Leaf (bstr "styp") (fr_styp a))).
