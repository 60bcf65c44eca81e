(** Vocabulary of property C67: from the URL of a media segment to the bytes of
    the reply. *)
From Coq Require Import QArith.
From Verif Require Import Base BytesModel BoxSpec ConfigModel ProxySpec MediaSpec EmsgSpec TimeSpec.
Local Open Scope string_scope.
Open Scope Z_scope.

(** Segment [n] stands in the loop over the stored segments at media time
    [media_start c n]: after so many whole loops, in seconds, and in this file. *)
Definition shift (c : config) (n : Z) : Z :=
  let loop := c_seg_dur c * c_vod_n c in media_start c n / loop * loop.
Definition source_file (c : config) (n : Z) : Z :=
  c_vod_first c + (media_start c n / c_seg_dur c) mod c_vod_n c.
Definition is_last (c : config) (n : Z) : Prop := exists q, In q (c_last_nrs c) /\ (q == inject_Z n)%Q.

(** The server simulates going up and down (option baseurl_uX_dY or
    baseurl_dX_uY); [b]: this is the last second before it goes down. *)
Inductive going_down (c : config) (sec : Z) : bool -> Prop :=
| gd_plain : (forall u, c_multi_url c <> [u]) -> going_down c sec false
| gd_up_first : forall X Y b, c_multi_url c = ["u" ++ print_Z X ++ "_d" ++ print_Z Y] ->
    0 <= X -> 0 <= Y -> 0 < X + Y ->
    (b = true <-> exists k, 0 <= k /\ sec mod 60 = X + k * (X + Y)) -> going_down c sec b
| gd_down_first : forall X Y, c_multi_url c = ["d" ++ print_Z X ++ "_u" ++ print_Z Y] ->
    0 <= X -> 0 <= Y -> 0 < X + Y -> going_down c sec false.
(** The event then sent: its text is the time in UTC. *)
Definition down_event (sec : Z) (b : box) : Prop :=
  exists text y m d hh mi ss,
    b = Leaf (bstr "emsg") (event_payload (bstr "urn:mpeg:dash:event:2012") (bstr "1") 1 2 0 0 (bstr text)) /\
    read_timestamp text = Some (y, m, d, hh, mi, ss) /\ valid_reading y m d hh mi ss /\ instant y m d hh mi ss = sec.

(** The splice events of segment [k] (seconds k*d to (k+1)*d) in video with [n]
    splices a minute. *)
Definition splice_events (n d k : Z) (ev : list box) : Prop :=
  (ev = [] \/ 1 <= n <= 8 /\ exists t, ev = [splice_box n (k * d) t] /\ splice n t /\ 0 <= t /\ (touches d k (t - 6) \/ touches d k (t - 8))) /\
  (1 <= n <= 8 -> d <= 100 ->
     forall t, splice n t -> 0 <= t -> t / 10 < 4294967296 -> t / 60 = k * d / 60 ->
     touches d k (t - 6) \/ touches d k (t - 8) -> ev <> []).

(** [sent c r n sec down l out]: the boxes [out] are the stored boxes [l] of
    representation [r] as segment [n], second [sec]. *)
Definition sent (c : config) (r : rep) (n sec : Z) (down : bool) (l out : list box) : Prop :=
  exists last ev e sx l1 g,
    top_changes (mk_request (Some n) (shift c n * rep_timescale r) last None ev) 0 l l1 g /\
    inserted (e ++ sx) l1 out /\
    (last = true <-> is_last c n) /\
    (if down then exists b, e = [b] /\ down_event sec b else e = []) /\
    Forall (fun b => btype b = bstr "sidx") sx /\ (c_insert_sidx c = false -> sx = []) /\
    (rep_type r <> "video" -> ev = []) /\
    (rep_type r = "video" -> splice_events (c_scte35 c) (c_seg_dur c) n ev).

(** [beside rel id dir]: [dir] is the directory of representation [id] next to
    the directory [rel] named in the URL. *)
Inductive beside : string -> string -> string -> Prop :=
| be_top : forall x id, ~ In "/"%char (list_ascii_of_string x) -> beside x id id
| be_in : forall d x id, ~ In "/"%char (list_ascii_of_string x) -> beside (d ++ "/" ++ x) id (d ++ "/" ++ id).
(** Replies: refused with a text, or this one body. *)
Definition not_chunked (c : config) : Prop := forall q, c_chunkdur c = Some q -> (q <= 0)%Q.
