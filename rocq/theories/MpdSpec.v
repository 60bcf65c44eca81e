(** What the generated manifest promises, from the documentation and the DASH
    schema; independent of the functions that build it. *)
From Verif Require Import Base ConfigModel MpdModel PeriodModel.
Open Scope Z_scope.

(** The session has ended: a stop time is configured and has passed. *)
Definition ended (c : config) (now : Z) : Prop := exists s, c_stop_time c = Some s /\ s < now.

(** The last second of the up interval before the down interval that holds
    second [m] >= 1 of the minute, in a schedule of X up and Y down seconds. *)
Definition last_up_second (X Y m : Z) : Z := (m - 1) / (X + Y) * (X + Y) + X.

(** Children with a given tag, in order. *)
Definition children (t : string) (x : xml) : list xml := filter (fun y => String.eqb (x_tag y) t) (x_kids x).

(** The event stream announcing that media stops, and a manifest without it. *)
Definition event_stream (x : xml) : bool :=
  String.eqb (x_tag x) "InbandEventStream" &&
  match get "schemeIdUri" x with Some s => String.eqb s "urn:mpeg:dash:event:2012" | None => false end.
Definition map_tag (t : string) (f : xml -> xml) (x : xml) : xml :=
  Elem (x_tag x) (x_attrs x) (x_text x) (map (fun y => if String.eqb (x_tag y) t then f y else y) (x_kids x)).
Definition without_events (x : xml) : xml :=
  map_tag "Period" (map_tag "AdaptationSet" (fun a =>
    Elem (x_tag a) (x_attrs a) (x_text a) (filter (fun y => negb (event_stream y)) (x_kids a)))) x.

(** ** What a Period of the live manifest says, for number addressing. *)
Definition no_offset (s : string) : bool := String.eqb s "0" || String.eqb s "".
(** [T] is the SegmentTemplate [t] of the source for the period [p]. *)
Record template_for (c : config) (p : pdata) (t T : xml) : Prop := {
  tf_number : get "startNumber" T = (if String.eqb (pd_start_number p) "-1" then None else Some (pd_start_number p));
  tf_pto : get "presentationTimeOffset" T =
    (if (c_peroff c <? 0) && negb (no_offset (pto_str (pd_pto p))) then Some (pto_str (pd_pto p)) else get "presentationTimeOffset" t);
  tf_other : forall k, ~ In k ["startNumber"; "presentationTimeOffset"; "availabilityTimeOffset"; "availabilityTimeComplete"]%string ->
    get k T = get k t;
  tf_kids : x_kids T = x_kids t
}.
(** [A] is the AdaptationSet [a] of the source: same attributes, templates for
    [p], and nothing else but some descriptors added. *)
Record adaptation_for (c : config) (p : pdata) (a A : xml) : Prop := {
  af_attrs : x_attrs A = x_attrs a;
  af_templates : Forall2 (template_for c p) (children "SegmentTemplate" a) (children "SegmentTemplate" A);
  af_other : forall t, ~ In t ["SegmentTemplate"; "InbandEventStream"; "SupplementalProperty"; "ProducerReferenceTime"]%string ->
    children t A = children t a
}.
Record period_for (c : config) (p : pdata) (s P : xml) : Prop := {
  pf_id : get "id" P = Some (pd_id p);
  pf_start : get "start" P = Some (pd_start p);
  pf_duration : get "duration" P =
    match pd_period_duration p, pd_etp p with
    | Some t, _ => Some t
    | None, Some n => Some ("PT" ++ print_Z n ++ "S")%string
    | None, None => get "duration" s
    end;
  pf_attrs : forall k, ~ In k ["id"; "start"; "duration"]%string -> get k P = get k s;
  pf_offset : 0 <= c_peroff c -> no_offset (pto_str (pd_pto p)) = false ->
    exists b, children "SegmentBase" P = b :: children "SegmentBase" s /\ get "presentationTimeOffset" b = Some (pto_str (pd_pto p));
  pf_sets : Forall2 (adaptation_for c p) (children "AdaptationSet" s) (children "AdaptationSet" P);
  pf_other : forall t, ~ In t ["AdaptationSet"; "SegmentBase"; "EventStream"]%string -> children t P = children t s
}.
