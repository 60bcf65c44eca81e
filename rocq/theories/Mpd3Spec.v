(** What a Period of the live manifest says for SegmentTimeline addressing, read
    off the XML tree the way a client does; independent of the functions that
    build it. *)
From Verif Require Import Base StrModel ConfigModel TimelineModel TimelineSpec MpdModel MpdSpec PeriodModel.
Open Scope Z_scope.

(** An attribute read as an integer. *)
Definition int_attr (k : string) (x : xml) : option Z :=
  match get k x with
  | Some s => match py_int s with Ok z => Some z | Err _ => None end
  | None => None
  end.
(** The S elements of a SegmentTimeline (ISO/IEC 23009-1, 5.3.9.6): d is
    required, t defaults to where the previous element ended, r to 0. *)
Fixpoint client_s (now : Z) (l : list xml) : option (list (Z * Z)) :=
  match l with
  | [] => Some []
  | s :: rest =>
      match int_attr "d" s with
      | None => None
      | Some d =>
          let t := match int_attr "t" s with Some t => t | None => now end in
          let r := match int_attr "r" s with Some r => r | None => 0 end in
          option_map (app (s_segs t d (Z.to_nat (r + 1)))) (client_s (t + (r + 1) * d) rest)
      end
  end.
(** The segments of a SegmentTemplate: those of its first SegmentTimeline. *)
Definition client_timeline (T : xml) : option (list (Z * Z)) :=
  match children "SegmentTimeline" T with
  | tl :: _ => client_s 0 (children "S" tl)
  | [] => None
  end.

(** The table of content type [ct] as a loop: the file named in the
    configuration, with the timescale of the content type. *)
Definition track_table (c : config) (tables : string -> result (list entry)) (ct : string) (g : tgen) : Prop :=
  exists m f t, List.find (fun p => String.eqb (fst p) ct) (c_media_data c) = Some (ct, m) /\
    m_dat m = Some f /\ tables f = Ok t /\
    g = mk_tgen (m_timescale m) t (c_wrap_secs c * m_timescale m) (c_vod_n c) (c_vod_first c).

(** The part of a period that is in the time shift buffer, in seconds after the
    availability start time. *)
Definition shown_from (c : config) (depth now : Z) (p : pdata) : Z := Z.max (pd_start_s p) (now - depth - c_ast c).
Definition shown_until (c : config) (now : Z) (p : pdata) : Z :=
  match pd_period_duration_s p with
  | Some d => Z.min (pd_start_s p + d) (now - c_ast c)
  | None => now - c_ast c
  end.

(** [T] is the SegmentTemplate [t] of the source for the period [p], with a
    SegmentTimeline in the units of [g] instead of a segment duration. *)
Record template_timed (c : config) (p : pdata) (g : tgen) (t T : xml) : Prop := {
  tm_timescale : int_attr "timescale" T = Some (tg_timescale g);
  tm_no_duration : get "duration" T = None;
  tm_number : get "startNumber" T = None <-> c_segtl c = true;
  tm_media : exists m, get "media" t = Some m /\
    get "media" T = Some (if c_segtl c then replace_all "$Number$" "t$Time$" m else m);
  tm_no_pto : 0 <= c_peroff c -> get "presentationTimeOffset" T = get "presentationTimeOffset" t;
  tm_pto : forall z, c_peroff c < 0 -> pto_str (pd_pto p) = print_Z z ->
    get "presentationTimeOffset" T = Some (print_Z (z * tg_timescale g)) \/
    (z = 0 /\ get "presentationTimeOffset" T = get "presentationTimeOffset" t);
  tm_other : forall k, ~ In k ["startNumber"; "presentationTimeOffset"; "availabilityTimeOffset"; "availabilityTimeComplete";
                               "duration"; "timescale"; "media"]%string -> get k T = get k t;
  tm_kids : exists l, x_tag l = "SegmentTimeline"%string /\ x_kids T = l :: x_kids t
}.
(** ... and the timeline lists the segments [a] to [b] of the loop [g]. *)
Record template_listing (c : config) (depth now : Z) (p : pdata) (g : tgen) (t T : xml) (a b : Z) : Prop := {
  tl_timed : template_timed c p g t T;
  tl_first : first_listed g (shown_from c depth now p * tg_timescale g) a;
  tl_last : last_complete g (shown_until c now p * tg_timescale g) b;
  tl_segments : client_timeline T = Some (live_range g a b);
  tl_first_number : c_segtl c = false -> a <= b -> int_attr "startNumber" T = Some a
}.
(** [X] is the AdaptationSet [x] of the source with templates related by [R]
    (which may look at the content type). *)
Record adaptation_with (R : option string -> xml -> xml -> Prop) (x X : xml) : Prop := {
  aw_attrs : x_attrs X = x_attrs x;
  aw_templates : Forall2 (R (get "contentType" x)) (children "SegmentTemplate" x) (children "SegmentTemplate" X);
  aw_other : forall t, ~ In t ["SegmentTemplate"; "InbandEventStream"; "SupplementalProperty"; "ProducerReferenceTime"]%string ->
    children t X = children t x
}.
(** [P] is the Period [s] of the source for the period [p], with templates
    related by [R]. *)
Record period_with (c : config) (R : option string -> xml -> xml -> Prop) (p : pdata) (s P : xml) : Prop := {
  pw_id : get "id" P = Some (pd_id p);
  pw_start : get "start" P = Some (pd_start p);
  pw_duration : get "duration" P =
    match pd_period_duration p, pd_etp p with
    | Some t, _ => Some t
    | None, Some n => Some ("PT" ++ print_Z n ++ "S")%string
    | None, None => get "duration" s
    end;
  pw_attrs : forall k, ~ In k ["id"; "start"; "duration"]%string -> get k P = get k s;
  pw_offset : 0 <= c_peroff c -> no_offset (pto_str (pd_pto p)) = false ->
    exists b, children "SegmentBase" P = b :: children "SegmentBase" s /\ get "presentationTimeOffset" b = Some (pto_str (pd_pto p));
  pw_sets : Forall2 (adaptation_with R) (children "AdaptationSet" s) (children "AdaptationSet" P);
  pw_other : forall t, ~ In t ["AdaptationSet"; "SegmentBase"; "EventStream"]%string -> children t P = children t s
}.

(** Number addressing, or a timeline in the units of the content type. *)
Definition template_any (c : config) (tables : string -> result (list entry)) (p : pdata) (ct : option string) (t T : xml) : Prop :=
  (c_segtl c = false /\ c_segtlnr c = false -> template_for c p t T) /\
  (c_segtl c = true \/ c_segtlnr c = true ->
    exists q g, (q = "video" \/ q = "audio")%string /\ ct = Some q /\ track_table c tables q g /\ template_timed c p g t T).
(** A timeline listing what is in the time shift buffer. *)
Definition template_lists (c : config) (tables : string -> result (list entry)) (depth now : Z) (p : pdata) (ct : option string) (t T : xml) : Prop :=
  exists q g a b, (q = "video" \/ q = "audio")%string /\ ct = Some q /\ track_table c tables q g /\
    template_listing c depth now p g t T a b.

(** The children before the Period that the server is written for: any number
    of ProgramInformation elements and then at most one BaseURL. *)
Definition expected_front (pre : list xml) : Prop :=
  exists progs bu, pre = (progs ++ bu)%list /\ Forall (fun y => x_tag y = "ProgramInformation"%string) progs /\
    (bu = [] \/ exists b, bu = [b] /\ x_tag b = "BaseURL"%string).
(** The tags of MPD children that the server adds, changes or removes. *)
Definition managed_tags : list string := ["Period"; "BaseURL"; "Location"; "ServiceDescription"; "UTCTiming"]%string.
