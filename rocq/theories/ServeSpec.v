(** Vocabulary of property C68: stored segments that can be sent shifted by
    [shift] ticks. *)
From Verif Require Import Base BytesModel BoxSpec MediaSpec.
Open Scope Z_scope.

(** The leaves of a box: type and payload. *)
Fixpoint leaves (b : box) : list (bytes * bytes) :=
  match b with
  | Leaf t p => [(t, p)]
  | Node _ ks => (fix go l := match l with [] => [] | k :: r => leaves k ++ go r end) ks
  end.
Definition ascii_type (t : bytes) : Prop := Forall (fun x => 0 <= x < 128) t.

(** There is room for the changes: a decode time that fits 64 bits after the
    shift, track fragments without a base data offset, complete runs, and
    offsets that may grow by 4. *)
Inductive room (shift : Z) : bytes * bytes -> Prop :=
| R_tfdt : forall p t, decode_time p t -> 0 <= t + shift < 18446744073709551616 -> room shift (bstr "tfdt", p)
| R_tfhd : forall p, Z.testbit (be_val (btake 4 p)) 0 = false -> room shift (bstr "tfhd", p)
| R_trun : forall p total, trun_total 0 p total -> Forall (fun o => o + 4 < 2147483648) (data_offset p) ->
    room shift (bstr "trun", p)
| R_saio : forall p es, saio_entries p es -> Forall (fun e => e + 4 < 4294967296) es -> room shift (bstr "saio", p)
| R_other : forall t p, ~ In t [bstr "tfdt"; bstr "tfhd"; bstr "trun"; bstr "saio"] -> ascii_type t -> room shift (t, p).

(** A stored segment: a well-formed file of less than 2 GiB with a movie
    fragment; styp, if there, is at the top level. *)
Record sendable (shift : Z) (l : list box) : Prop := mk_sendable {
  se_ok : segment_ok l;
  se_size : blen (encs l) < 2147483648;
  se_moof : exists b, In b l /\ moof b;
  se_room : forall b, In b l -> Forall (room shift) (leaves b);
  se_styp : forall t ks, In (Node t ks) l -> ~ In (bstr "styp") (map fst (leaves (Node t ks)))
}.
