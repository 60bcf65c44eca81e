(** What the live manifest signals in its adaptation sets, read off the tree;
    from doc/dashlivesim.mdown (scte35_n, continuous_1, segtimelineloss_1) and
    ISO/IEC 23009-1 (5.8.4.9 descriptors, 5.10.3.3 inband events, 5.3.2.4 period
    continuity). *)
From Verif Require Import Base ConfigModel ProxyModel ProxySpec MpdModel MpdSpec.
Local Open Scope string_scope.
Open Scope Z_scope.

(** Scheme and value of a descriptor. *)
Definition described (y : xml) : option string * option string := (get "schemeIdUri" y, get "value" y).
Definition splice_scheme : string := "urn:scte:scte35:2013:xml".
Definition loss_scheme : string := "urn:mpeg:dash:event:2012".
Definition continuity_scheme : string := "urn:mpeg:dash:period_continuity:2014".
(** The adaptation set announces events of this scheme in its segments. *)
Definition announces (scheme : string) (A : xml) : Prop :=
  exists y, In y (children "InbandEventStream" A) /\ get "schemeIdUri" y = Some scheme.
(** Its source says that it is video. *)
Definition says_video (a : xml) : Prop := get "contentType" a = Some "video".

(** Second [now] is the last one before the server goes down, and the session
    signals that: options segtimelineloss_1 and baseurl_uX_dY. *)
Definition last_before_loss (c : config) (now : Z) : Prop :=
  c_stl_loss c = true /\ exists u r X Y, c_multi_url c = u :: r /\ parse_updown u = Ok (("u"%char, X), ("d"%char, Y)) /\
    (0 < X \/ now mod 60 = 0) /\ exists k, 0 <= k /\ now mod 60 = X + k * (X + Y).

(** The id of the Period before the one at position [i]. *)
Definition period_before (x : xml) (i : nat) : option string :=
  match i with
  | O => None
  | S j => match nth_error (children "Period" x) j with Some Q => get "id" Q | None => None end
  end.

(** [A] is the adaptation set [a] of the source with the descriptors of the
    session in front of its own. *)
Record signalled (c : config) (now : Z) (before : option string) (a A : xml) : Prop := {
  sg_attrs : x_attrs A = x_attrs a;
  sg_events : exists splices losses,
    children "InbandEventStream" A = (splices ++ losses ++ children "InbandEventStream" a)%list /\
    (says_video a /\ 0 < c_scte35 c -> map described splices = [(Some splice_scheme, Some "999")]) /\
    (~ (says_video a /\ 0 < c_scte35 c) -> splices = []) /\
    (last_before_loss c now -> map described losses = [(Some loss_scheme, Some "1")]) /\
    (~ last_before_loss c now -> losses = []);
  sg_continuity : exists props,
    children "SupplementalProperty" A = (props ++ children "SupplementalProperty" a)%list /\
    (forall id, before = Some id -> c_cont_mp c = true -> map described props = [(Some continuity_scheme, Some id)]) /\
    (before = None \/ c_cont_mp c = false -> props = []);
  sg_other : forall t, ~ In t ["SegmentTemplate"; "InbandEventStream"; "SupplementalProperty"; "ProducerReferenceTime"] ->
    children t A = children t a
}.
