(** Vocabulary of property C82: a file as a tree of boxes, its bytes, where each box is,
    and which boxes a path leads to. *)
From Verif Require Import Base BytesModel BoxSpec ChunkModel BoxesModel NavModel.
From Coq Require Import Sorted.
Open Scope Z_scope.

(** A box: its type, the bytes after size and type, and the boxes after those *)
Inductive node := Part (t head : bytes) (kids : list node).
Definition n_type (n : node) : bytes := let 'Part t _ _ := n in t.
Definition n_head (n : node) : bytes := let 'Part _ h _ := n in h.
Definition n_kids (n : node) : list node := let 'Part _ _ k := n in k.
Fixpoint node_bytes (n : node) : bytes :=
  let 'Part t head kids := n in
  let inside := head ++ List.concat (map node_bytes kids) in
  be32 (8 + blen inside) ++ t ++ inside.
Definition file_bytes (l : list node) : bytes := List.concat (map node_bytes l).
Definition node_size (n : node) : Z := blen (node_bytes n).

(** Boxes with boxes in them and the number of bytes before those (ISO/IEC 14496-12
    8.1-8.12, 14496-14 5.6, 14496-15, 14496-30, ETSI TS 102 366) *)
Definition holders : list (bytes * Z) :=
  map (fun t => (bstr t, 0)) ["moov"; "moof"; "trak"; "traf"; "tfad"; "mvex"; "mdia"; "minf"; "dinf"; "stbl"; "mfra"; "udta"; "sinf"; "schi"; "vttc"]%string ++
  [(bstr "stsd", 8)] ++
  map (fun t => (bstr t, 78)) ["avc1"; "hev1"; "hvc1"; "encv"]%string ++
  map (fun t => (bstr t, 28)) ["mp4a"; "enca"; "ac-3"; "ec-3"]%string.
(** How the parser spells a type *)
Definition named (t : bytes) : bytes :=
  if bytes_eqb t (bstr "ac-3") then bstr "ac_3" else if bytes_eqb t (bstr "ec-3") then bstr "ec_3" else t.
(** Names that are something else to the parser *)
Definition reserved_names : list bytes := map bstr ["schm"; "root"; "ac_3"; "ec_3"]%string.

(** Files that the claim is about: types of four ASCII characters, sizes of 32 bits, and boxes
    for boxes are not empty. *)
Inductive well_made : node -> Prop :=
| well_made_leaf : forall t p, blen t = 4 -> Forall (fun x => 0 <= x <= 127) t -> ~ In t reserved_names -> (forall n, ~ In (t, n) holders) ->
    8 + blen p < 4294967296 -> well_made (Part t p [])
| well_made_holder : forall t n head kids, In (t, n) holders -> blen head = n -> kids <> [] -> Forall well_made kids ->
    node_size (Part t head kids) < 4294967296 -> well_made (Part t head kids).

(** Where the boxes are: the tree with types, sizes and positions *)
Fixpoint tree_at (n : node) (o : Z) {struct n} : pbox :=
  let 'Part t head kids := n in
  PBox (named t) (node_size n) o
    ((fix go (l : list node) (o : Z) : list pbox := match l with [] => [] | k :: r => tree_at k o :: go r (o + node_size k) end) kids (o + 8 + blen head)).
Fixpoint trees_at (l : list node) (o : Z) : list pbox :=
  match l with [] => [] | k :: r => tree_at k o :: trees_at r (o + node_size k) end.
(** The whole file *)
Definition file_tree (l : list node) : pbox := PBox (bstr "root") (blen (file_bytes l)) 0 (trees_at l 0).

(** The class of each box can read it ([before] are the boxes before it in the same box). *)
Fixpoint readable (data : bytes) (n : node) (o : Z) (before : list pbox) {struct n} : Prop :=
  let 'Part t head kids := n in
  constructor data (named t) o (node_size n) before = Ok (named t) /\
  (fix go (l : list node) (o : Z) (before : list pbox) : Prop :=
     match l with [] => True | k :: r => readable data k o before /\ go r (o + node_size k) (before ++ [tree_at k o]) end) kids (o + 8 + blen head) [].
Fixpoint all_readable (data : bytes) (l : list node) (o : Z) (before : list pbox) : Prop :=
  match l with [] => True | k :: r => readable data k o before /\ all_readable data r (o + node_size k) (before ++ [tree_at k o]) end.
Definition file_readable (l : list node) : Prop := all_readable (file_bytes l) l 0 [].

(** The boxes that a path leads to *)
Inductive reached : place -> list bytes -> place -> Prop :=
| reached_here : forall p, reached p [] p
| reached_step : forall b r k t rest q, In k (p_kids b) -> p_type k = t -> reached (k :: b :: r) rest q -> reached (b :: r) (t :: rest) q.
(** In the order of the file *)
Definition offset_of (p : place) : Z := match p with b :: _ => p_offset b | [] => 0 end.
Definition in_file_order (l : list place) : Prop := StronglySorted (fun p q => offset_of p < offset_of q) l.

(** The first of a list with a property *)
Definition first_with {A} (P : A -> Prop) (l : list A) (x : A) : Prop := exists a b, l = a ++ x :: b /\ P x /\ Forall (fun y => ~ P y) a.
Definition only_with {A} (P : A -> Prop) (l : list A) (x : A) : Prop := exists a b, l = a ++ x :: b /\ P x /\ Forall (fun y => ~ P y) (a ++ b).
Definition typed (s : string) (n : node) : Prop := n_type n = bstr s.
(** A track whose media information has a header of this type *)
Definition track_with (header : string) (n : node) : Prop :=
  typed "trak" n /\ exists d i h, In d (n_kids n) /\ typed "mdia" d /\ In i (n_kids d) /\ typed "minf" i /\ In h (n_kids i) /\ typed header h.
(** The first track of a kind, its track header and media header *)
Definition first_track (header : string) (file : list node) (tkhd mdhd : node) : Prop :=
  exists moov trak mdia, only_with (typed "moov") file moov /\ first_with (track_with header) (n_kids moov) trak
    /\ only_with (typed "mdia") (n_kids trak) mdia /\ first_with (typed "tkhd") (n_kids trak) tkhd /\ first_with (typed "mdhd") (n_kids mdia) mdhd.
Definition no_track (header : string) (file : list node) : Prop :=
  forall moov trak, In moov file -> typed "moov" moov -> In trak (n_kids moov) -> ~ track_with header trak.
(** The number after version, flags and the two times of a track header or media header: the
    track or the time scale *)
Definition header_says (n : node) (z : Z) : Prop :=
  exists v flags times rest, n_head n = v :: flags ++ times ++ be32 z ++ rest /\ blen flags = 3 /\ 0 <= z < 4294967296
    /\ (v = 0 /\ blen times = 8 \/ v = 1 /\ blen times = 16).

(** Boxes as the format has them: any type, boxes for boxes may be empty *)
Definition octets (b : bytes) : Prop := Forall (fun x => 0 <= x <= 255) b.
Inductive formed : node -> Prop :=
| formed_leaf : forall t p, blen t = 4 -> octets t -> octets p -> (forall n, ~ In (t, n) holders) -> 8 + blen p < 4294967296 -> formed (Part t p [])
| formed_holder : forall t n head kids, In (t, n) holders -> blen head = n -> octets head -> Forall formed kids -> node_size (Part t head kids) < 4294967296 ->
    formed (Part t head kids).
(** The boxes of a file are found. *)
Definition found (l : list node) : Prop := parse_file (file_bytes l) = Ok (file_tree l).
