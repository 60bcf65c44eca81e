(** Init segments, from ISO/IEC 14496-12: where the duration and time scale
    fields are (offsets in the payload, after the 8-byte box header). *)
From Verif Require Import Base BytesModel BoxSpec.
Open Scope Z_scope.

Definition version1 (p : bytes) : bool := match p with v :: _ => v =? 1 | [] => false end.
(** Position and width of the duration field.  8.2.2: mvhd has version/flags,
    creation and modification time, timescale, duration; 8.4.2: mdhd the same;
    8.3.2: tkhd has track id and a reserved word instead of the timescale. *)
Definition duration_at (t p : bytes) : option (Z * Z) :=
  if bytes_eqb t (bstr "mvhd") || bytes_eqb t (bstr "mdhd") then Some (if version1 p then (24, 8) else (16, 4))
  else if bytes_eqb t (bstr "tkhd") then Some (if version1 p then (28, 8) else (20, 4))
  else None.
(** Boxes looked into. *)
Definition movie_containers : list bytes := [bstr "moov"; bstr "trak"; bstr "mdia"; bstr "mvex"].

(** Payload of the live version: zero duration, all else equal. *)
Definition live_payload (t p q : bytes) : Prop :=
  match duration_at t p with
  | Some (o, n) => blen q = blen p /\ btake o q = btake o p /\
                   Forall (fun x => x = 0) (bslice o (o + n) q) /\ bdrop (o + n) q = bdrop (o + n) p
  | None => q = p
  end.
Inductive live_box : box -> box -> Prop :=
| live_leaf : forall t p q, live_payload t p q -> live_box (Leaf t p) (Leaf t q)
| live_node : forall t l m, Forall2 live_box l m -> live_box (Node t l) (Node t m).
(** Only the movie box is changed. *)
Definition live_top (b c : box) : Prop := if bytes_eqb (btype b) (bstr "moov") then live_box b c else c = b.
Definition live_init (l m : list box) : Prop := Forall2 live_top l m.

(** Headers long enough to have the duration field. *)
Definition header_ok (t p : bytes) : Prop :=
  utf8_ok t = true /\ match duration_at t p with Some (o, n) => o + n <= blen p | None => True end.

(** What a reader needs from an init segment. *)
Definition field (o n : Z) (p : bytes) : Z := be_val (bslice o (o + n) p).
Definition media_timescale (p : bytes) : Z := if version1 p then field 20 4 p else field 12 4 p.
Definition track_id (p : bytes) : Z := if version1 p then field 20 4 p else field 12 4 p.
(** Leaves of the movie box in file order. *)
Fixpoint leaves (b : box) : list (bytes * bytes) :=
  match b with
  | Leaf t p => [(t, p)]
  | Node _ ks => (fix go l := match l with [] => [] | k :: r => leaves k ++ go r end) ks
  end.
Definition movie_leaves (l : list box) : list (bytes * bytes) :=
  flat_map (fun b => if bytes_eqb (btype b) (bstr "moov") then leaves b else []) l.
Definition of_type (t : bytes) (l : list (bytes * bytes)) : list bytes :=
  map snd (filter (fun x => bytes_eqb (fst x) t) l).

(** Boxes long enough for the fields read, of a known version. *)
Definition reader_ok (t p : bytes) : Prop :=
  utf8_ok t = true /\
  (t = bstr "tkhd" -> exists r, (p = 0 :: r /\ 16 <= blen p) \/ (p = 1 :: r /\ 24 <= blen p)) /\
  (t = bstr "mdhd" -> if version1 p then 24 <= blen p else 16 <= blen p) /\
  (t = bstr "trex" -> 24 <= blen p).
