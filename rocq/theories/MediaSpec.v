(** What filtering a media segment may change: a relation between an input box
    and the boxes that replace it, in terms of the published box layouts
    (ISO/IEC 14496-12), independent of the code's parsing. *)
From Verif Require Import Base BytesModel BoxSpec.
Open Scope Z_scope.

Definition containers : list bytes := [bstr "moof"; bstr "traf"].
(** boxes that are looked into at top level *)
Definition tops : list bytes := [bstr "styp"; bstr "sidx"; bstr "moof"; bstr "mdat"].

(** two's complement 32-bit *)
Definition s32 (z : Z) : bytes := be32 (z mod 4294967296).

Definition special : list bytes :=
  [bstr "styp"; bstr "sidx"; bstr "mfhd"; bstr "tfdt"; bstr "trun"; bstr "saio"; bstr "tfhd"].

(** Payload layouts that the filter relies on. *)
Inductive layout : bytes -> bytes -> Prop :=
| L_mfhd : forall vf nr, blen vf = 4 -> blen nr = 4 -> layout (bstr "mfhd") (vf ++ nr)
| L_tfdt0 : forall f t, blen f = 3 -> blen t = 4 -> layout (bstr "tfdt") (0 :: f ++ t)
| L_tfdt1 : forall v f t, v <> 0 -> blen f = 3 -> blen t = 8 -> layout (bstr "tfdt") (v :: f ++ t)
| L_styp : forall brands, Forall (fun b => blen b = 4) brands -> layout (bstr "styp") (List.concat brands)
| L_saio0 : forall f aux entries, blen f = 3 ->
    blen aux = (if Z.testbit (be_val f) 0 then 8 else 0) ->
    Forall (fun e => 0 <= e < 4294967296) entries -> Z.of_nat (List.length entries) < 4294967296 ->
    layout (bstr "saio") (0 :: f ++ aux ++ be32 (Z.of_nat (List.length entries)) ++ List.concat (map be32 entries))
| L_saio1 : forall v f aux entries, 0 < v < 256 -> blen f = 3 ->
    blen aux = (if Z.testbit (be_val f) 0 then 8 else 0) ->
    Forall (fun e => 0 <= e < 18446744073709551616) entries -> Z.of_nat (List.length entries) < 4294967296 ->
    layout (bstr "saio") (v :: f ++ aux ++ be32 (Z.of_nat (List.length entries)) ++ List.concat (map be64 entries))
| L_tfhd : forall vf track a b c rest, blen vf = 4 -> blen track = 4 ->
    blen a = (if Z.testbit (be_val vf) 1 then 4 else 0) ->
    blen b = (if Z.testbit (be_val vf) 3 then 4 else 0) ->
    blen c = (if Z.testbit (be_val vf) 4 then 4 else 0) ->
    layout (bstr "tfhd") (vf ++ track ++ a ++ b ++ c ++ rest)
| L_other : forall t p, ~ In t [bstr "mfhd"; bstr "tfdt"; bstr "styp"; bstr "saio"; bstr "tfhd"] -> layout t p.

Definition leaf_ok (t p : bytes) : Prop :=
  layout t p /\ (In t special -> Forall (fun b => 0 <= b < 256) p).
(** A segment file: boxes tiling the file, moof and traf being the containers. *)
Definition segment_ok (l : list box) : Prop := boxes_ok containers leaf_ok l.

(** What is asked for: the number (None: keep), the decode time shift in ticks,
    whether the segment is the last one, the new size of a TTML sample. *)
Record request := mk_request {
  rq_number : option Z; rq_shift : Z; rq_last : bool; rq_ttml : option Z;
  rq_events : list box  (** event boxes to follow styp *)
}.

(** [doc_change r d b bs d']: box [b] is replaced by [bs]; [d] is the number of
    bytes by which the fragment header has grown before this box, [d'] after it. *)
Inductive doc_change (r : request) : Z -> box -> list box -> Z -> Prop :=
| D_same : forall d t p, ~ In t special -> doc_change r d (Leaf t p) [Leaf t p] d
| D_sidx : forall d p, doc_change r d (Leaf (bstr "sidx") p) [] d
| D_styp : forall d brands brands', Forall (fun b => blen b = 4) brands ->
    brands' = filter (fun b => negb (bytes_eqb b (bstr "lmsg"))) brands
              ++ (if rq_last r then [bstr "lmsg"] else []) ->
    8 + blen (List.concat brands') < 4294967296 ->
    doc_change r d (Leaf (bstr "styp") (List.concat brands))
      (Leaf (bstr "styp") (List.concat brands') :: rq_events r) d
| D_mfhd : forall d vf nr n, rq_number r = Some n -> blen vf = 4 -> blen nr = 4 -> 0 <= n < 4294967296 ->
    doc_change r d (Leaf (bstr "mfhd") (vf ++ nr)) [Leaf (bstr "mfhd") (vf ++ be32 n)] d
| D_mfhd_keep : forall d p, rq_number r = None ->
    doc_change r d (Leaf (bstr "mfhd") p) [Leaf (bstr "mfhd") p] d
| D_tfdt0 : forall d f t, blen f = 3 -> 0 <= t < 4294967296 -> 0 <= t + rq_shift r < 4294967296 ->
    doc_change r d (Leaf (bstr "tfdt") (0 :: f ++ be32 t))
                   [Leaf (bstr "tfdt") (0 :: f ++ be32 (t + rq_shift r))] d
| D_tfdt0_wide : forall d f t, blen f = 3 -> 0 <= t < 4294967296 ->
    4294967296 <= t + rq_shift r < 18446744073709551616 ->
    doc_change r d (Leaf (bstr "tfdt") (0 :: f ++ be32 t))
                   [Leaf (bstr "tfdt") (1 :: f ++ be64 (t + rq_shift r))] 4
| D_tfdt1 : forall d v f t, v <> 0 -> blen f = 3 -> 0 <= t < 18446744073709551616 ->
    0 <= t + rq_shift r < 18446744073709551616 ->
    doc_change r d (Leaf (bstr "tfdt") (v :: f ++ be64 t))
                   [Leaf (bstr "tfdt") (v :: f ++ be64 (t + rq_shift r))] d
| D_trun_keep : forall d p, d = 0 \/ Z.testbit (be_val (btake 4 p)) 0 = false ->
    doc_change r d (Leaf (bstr "trun") p) [Leaf (bstr "trun") p] d
| D_trun_move : forall d vf cnt o rest, 0 < d -> blen vf = 4 -> blen cnt = 4 ->
    Z.testbit (be_val vf) 0 = true ->
    -2147483648 <= o < 2147483648 -> -2147483648 <= o + d < 2147483648 ->
    doc_change r d (Leaf (bstr "trun") (vf ++ cnt ++ s32 o ++ rest))
                   [Leaf (bstr "trun") (vf ++ cnt ++ s32 (o + d) ++ rest)] d
| D_saio0 : forall d f aux entries, blen f = 3 ->
    blen aux = (if Z.testbit (be_val f) 0 then 8 else 0) ->
    Forall (fun e => 0 <= e < 4294967296 /\ 0 <= e + d < 4294967296) entries ->
    let hd := 0 :: f ++ aux ++ be32 (Z.of_nat (List.length entries)) in
    doc_change r d (Leaf (bstr "saio") (hd ++ List.concat (map be32 entries)))
                   [Leaf (bstr "saio") (hd ++ List.concat (map (fun e => be32 (e + d)) entries))] d
| D_saio1 : forall d v f aux entries, 0 < v < 256 -> blen f = 3 ->
    blen aux = (if Z.testbit (be_val f) 0 then 8 else 0) ->
    Forall (fun e => 0 <= e < 18446744073709551616 /\ 0 <= e + d < 18446744073709551616) entries ->
    let hd := v :: f ++ aux ++ be32 (Z.of_nat (List.length entries)) in
    doc_change r d (Leaf (bstr "saio") (hd ++ List.concat (map be64 entries)))
                   [Leaf (bstr "saio") (hd ++ List.concat (map (fun e => be64 (e + d)) entries))] d
| D_tfhd : forall d p, rq_ttml r = None \/ rq_ttml r = Some 0 ->
    doc_change r d (Leaf (bstr "tfhd") p) [Leaf (bstr "tfhd") p] d
| D_tfhd_ttml : forall d vf track a b old new rest, rq_ttml r = Some new -> 0 < new < 4294967296 ->
    blen vf = 4 -> blen track = 4 ->
    blen a = (if Z.testbit (be_val vf) 1 then 4 else 0) -> Z.testbit (be_val vf) 3 = true ->
    blen b = 4 -> Z.testbit (be_val vf) 4 = true -> blen old = 4 ->
    doc_change r d (Leaf (bstr "tfhd") (vf ++ track ++ a ++ b ++ old ++ rest))
                   [Leaf (bstr "tfhd") (vf ++ track ++ a ++ b ++ be32 new ++ rest)] d
| D_node : forall d t ks ks' d', doc_changes r d ks ks' d' -> 8 + blen (encs ks') < 4294967296 ->
    doc_change r d (Node t ks) [Node t ks'] d'
with doc_changes (r : request) : Z -> list box -> list box -> Z -> Prop :=
| D_nil : forall d, doc_changes r d [] [] d
| D_cons : forall d b bs d1 l l' d2, doc_change r d b bs d1 -> doc_changes r d1 l l' d2 ->
    doc_changes r d (b :: l) (bs ++ l') d2.

(** Top level: boxes of other types are copied as they are. *)
Inductive top_changes (r : request) : Z -> list box -> list box -> Z -> Prop :=
| T_nil : forall d, top_changes r d [] [] d
| T_in : forall d b bs d1 l l' d2, In (btype b) tops ->
    doc_change r d b bs d1 -> top_changes r d1 l l' d2 -> top_changes r d (b :: l) (bs ++ l') d2
| T_out : forall d b l l' d2, ~ In (btype b) tops ->
    top_changes r d l l' d2 -> top_changes r d (b :: l) (b :: l') d2.

(** [inserted x l l']: the boxes [x] are put in front of the last moof. *)
Definition moof (b : box) : Prop := btype b = bstr "moof".
Definition inserted (x l l' : list box) : Prop :=
  (exists a m b, l = a ++ m :: b /\ moof m /\ Forall (fun k => ~ moof k) b /\ l' = a ++ x ++ m :: b) \/
  (Forall (fun k => ~ moof k) l /\ l' = x ++ l).

(** ** Movie fragments with one track fragment *)
(** Other boxes in a moof or traf: leaves, no styp, sidx or second tfdt. *)
Definition plain (b : box) : Prop :=
  match b with
  | Leaf t _ => ~ In t [bstr "styp"; bstr "sidx"; bstr "tfdt"]
  | Node _ _ => False
  end.
Record fragment := mk_fragment {
  fr_a : list box;     (** in moof, before traf *)
  fr_k1 : list box;    (** in traf, before tfdt *)
  fr_tfdt : bytes;     (** payload of tfdt *)
  fr_k2 : list box;    (** in traf, after tfdt *)
  fr_b : list box      (** in moof, after traf *)
}.
Definition fr_moof (f : fragment) : box :=
  Node (bstr "moof")
    (fr_a f ++ Node (bstr "traf") (fr_k1 f ++ Leaf (bstr "tfdt") (fr_tfdt f) :: fr_k2 f) :: fr_b f).
Definition fr_plain (f : fragment) : Prop :=
  Forall plain (fr_a f) /\ Forall plain (fr_k1 f) /\ Forall plain (fr_k2 f) /\ Forall plain (fr_b f).
(** A segment with this fragment and its media data. *)
Definition seg (pre : list box) (f : fragment) (m : bytes) (post : list box) : list box :=
  pre ++ fr_moof f :: Leaf (bstr "mdat") m :: post.
(** Position of the first box after tfdt, from the start of moof. *)
Definition fr_pos (f : fragment) : Z :=
  8 + blen (encs (fr_a f)) + 8 + blen (encs (fr_k1 f)) + blen (enc (Leaf (bstr "tfdt") (fr_tfdt f))).

(** The decode time that a tfdt payload states. *)
Inductive decode_time : bytes -> Z -> Prop :=
| DT0 : forall f t, blen f = 3 -> 0 <= t < 4294967296 -> decode_time (0 :: f ++ be32 t) t
| DT1 : forall v f t, v <> 0 -> blen f = 3 -> 0 <= t < 18446744073709551616 ->
    decode_time (v :: f ++ be64 t) t.
(** The shifted time does not fit the 32-bit field it has. *)
Definition too_wide (shift : Z) (pl : bytes) : Prop :=
  exists f t, blen f = 3 /\ 0 <= t < 4294967296 /\ pl = 0 :: f ++ be32 t /\ 4294967296 <= t + shift.

(** Payloads of the mfhd boxes of all movie fragments. *)
Definition kid_mfhd (b : box) : list bytes :=
  match b with Leaf t p => if bytes_eqb t (bstr "mfhd") then [p] else [] | Node _ _ => [] end.
Definition top_mfhd (b : box) : list bytes :=
  match b with
  | Leaf _ _ => []
  | Node t ks => if bytes_eqb t (bstr "moof") then flat_map kid_mfhd ks else []
  end.
Definition mfhds (l : list box) : list bytes := flat_map top_mfhd l.

(** The offsets that a saio payload lists. *)
Inductive saio_entries : bytes -> list Z -> Prop :=
| SE0 : forall f aux es, blen f = 3 -> blen aux = (if Z.testbit (be_val f) 0 then 8 else 0) ->
    Forall (fun e => 0 <= e < 4294967296) es -> Z.of_nat (List.length es) < 4294967296 ->
    saio_entries (0 :: f ++ aux ++ be32 (Z.of_nat (List.length es)) ++ List.concat (map be32 es)) es
| SE1 : forall v f aux es, 0 < v < 256 -> blen f = 3 -> blen aux = (if Z.testbit (be_val f) 0 then 8 else 0) ->
    Forall (fun e => 0 <= e < 18446744073709551616) es -> Z.of_nat (List.length es) < 4294967296 ->
    saio_entries (v :: f ++ aux ++ be32 (Z.of_nat (List.length es)) ++ List.concat (map be64 es)) es.

(** Total duration of the samples of a trun payload, [dflt] being the default
    sample duration. *)
Definition sample_extra (flags : Z) : Z :=
  (if Z.testbit flags 9 then 4 else 0) + (if Z.testbit flags 10 then 4 else 0)
  + (if Z.testbit flags 11 then 4 else 0).
Definition trun_head (flags : Z) : Z :=
  (if Z.testbit flags 0 then 4 else 0) + (if Z.testbit flags 2 then 4 else 0).
Definition sumZ (l : list Z) : Z := fold_right Z.add 0 l.
Inductive trun_total (dflt : Z) : bytes -> Z -> Prop :=
| TT_each : forall vf hd samples, blen vf = 4 -> blen hd = trun_head (be_val vf) ->
    Z.testbit (be_val vf) 8 = true ->
    Forall (fun s : Z * bytes => 0 <= fst s < 4294967296 /\ blen (snd s) = sample_extra (be_val vf)) samples ->
    Z.of_nat (List.length samples) < 4294967296 ->
    trun_total dflt
      (vf ++ be32 (Z.of_nat (List.length samples)) ++ hd
       ++ List.concat (map (fun s : Z * bytes => be32 (fst s) ++ snd s) samples))
      (sumZ (map fst samples))
| TT_dflt : forall vf hd samples, blen vf = 4 -> blen hd = trun_head (be_val vf) ->
    Z.testbit (be_val vf) 8 = false ->
    Forall (fun s => blen s = sample_extra (be_val vf)) samples ->
    Z.of_nat (List.length samples) < 4294967296 ->
    trun_total dflt (vf ++ be32 (Z.of_nat (List.length samples)) ++ hd ++ List.concat samples)
      (dflt * Z.of_nat (List.length samples)).
(** Default sample duration of a tfhd payload, [trex] being the one of the track. *)
Inductive tfhd_default (trex : Z) : bytes -> Z -> Prop :=
| TD_own : forall vf track a d rest, blen vf = 4 -> blen track = 4 ->
    blen a = (if Z.testbit (be_val vf) 1 then 4 else 0) -> Z.testbit (be_val vf) 3 = true ->
    0 <= d < 4294967296 -> tfhd_default trex (vf ++ track ++ a ++ be32 d ++ rest) d
| TD_trex : forall vf rest, blen vf = 4 -> Z.testbit (be_val vf) 3 = false ->
    tfhd_default trex (vf ++ rest) trex.
(** Boxes without timing. *)
Definition untimed (b : box) : Prop :=
  plain b /\ ~ In (btype b) [bstr "tfhd"; bstr "trun"].
(** A fragment with one tfhd (payload [h]), then tfdt, and one trun (payload [r]). *)
Definition one_run (f : fragment) (h r : bytes) : Prop :=
  exists q1 q2 q3 q4, fr_k1 f = q1 ++ Leaf (bstr "tfhd") h :: q2 /\ fr_k2 f = q3 ++ Leaf (bstr "trun") r :: q4 /\
    Forall untimed (fr_a f ++ q1 ++ q2 ++ q3 ++ q4 ++ fr_b f).
(** Payload of a version 1 sidx box with one reference (type 0, so that the
    size is in the lower 31 bits) that starts with a SAP of type 1:
    version and flags, reference_ID, timescale, earliest presentation time,
    first offset, reserved and reference count, size, duration, SAP. *)
Definition sidx_fields (ts ept size dur : Z) : bytes :=
  [1; 0; 0; 0] ++ be32 1 ++ be32 ts ++ be64 ept ++ be64 0 ++ be32 1 ++ be32 size ++ be32 dur ++ [144; 0; 0; 0].

(** Brands of the top level styp boxes. *)
Definition top_styp (b : box) : list bytes :=
  match b with Leaf t p => if bytes_eqb t (bstr "styp") then [p] else [] | Node _ _ => [] end.
Definition styps (l : list box) : list bytes := flat_map top_styp l.
(** [brand_list l last]: [l] without lmsg, followed by one lmsg if [last]. *)
Fixpoint without_lmsg (l : list bytes) : list bytes :=
  match l with
  | [] => []
  | b :: r => if bytes_eqb b (bstr "lmsg") then without_lmsg r else b :: without_lmsg r
  end.
Definition brand_list (l : list bytes) (last : bool) : list bytes :=
  without_lmsg l ++ (if last then [bstr "lmsg"] else []).
(** Boxes that filtering copies. *)
Definition copied (b : box) : bool :=
  negb (bytes_in (btype b) [bstr "styp"; bstr "sidx"; bstr "moof"; bstr "emsg"]).

(** Walking box headers: every box that is met, at the top level or inside a
    container in [comp], declares a size that is not 0 (or is cut off before its
    size). *)
Inductive scan (comp : list bytes) : bytes -> Prop :=
| SC_short : forall d, blen d < 4 -> scan comp d
| SC_box : forall d n, 4 <= blen d -> n = be_val (btake 4 d) -> 0 < n ->
    (In (bslice 4 8 d) comp -> scan comp (bdrop 8 (btake n d))) ->
    scan comp (bdrop n d) -> scan comp d.
Inductive scan_top (top comp : list bytes) : bytes -> Prop :=
| ST_short : forall d, blen d < 4 -> scan_top top comp d
| ST_box : forall d n, 4 <= blen d -> n = be_val (btake 4 d) -> 0 < n ->
    (In (bslice 4 8 d) top -> In (bslice 4 8 d) comp -> scan comp (bdrop 8 (btake n d))) ->
    scan_top top comp (bdrop n d) -> scan_top top comp d.

(** Payloads of all tfdt boxes of the movie fragments, in order. *)
Fixpoint tfdts_in (b : box) : list bytes :=
  match b with
  | Leaf t p => if bytes_eqb t (bstr "tfdt") then [p] else []
  | Node _ ks => (fix go l := match l with [] => [] | k :: r => tfdts_in k ++ go r end) ks
  end.
Definition top_tfdt (b : box) : list bytes :=
  match b with Node t ks => if bytes_eqb t (bstr "moof") then tfdts_in b else [] | Leaf _ _ => [] end.
Definition tfdts (l : list box) : list bytes := flat_map top_tfdt l.
(** The decode time of a segment: that of its first fragment. *)
Definition starts_at (l : list box) (t : Z) : Prop :=
  exists x r, tfdts l = x :: r /\ decode_time x t.

(** Data offsets of the truns of a fragment, in order. *)
Fixpoint truns_in (b : box) : list bytes :=
  match b with
  | Leaf t p => if bytes_eqb t (bstr "trun") then [p] else []
  | Node _ ks => (fix go l := match l with [] => [] | k :: r => truns_in k ++ go r end) ks
  end.
Definition data_offset (p : bytes) : list Z :=
  if Z.testbit (be_val (btake 4 p)) 0
  then [(be_val (bslice 8 12 p) + 2147483648) mod 4294967296 - 2147483648] else [].
Definition data_offsets (b : box) : list Z := flat_map data_offset (truns_in b).
