(** Vocabulary of property C81: sessions and sources for which a manifest can be made. *)
From Verif Require Import Base ConfigModel ProxyModel StrModel TimelineModel TimelineSpec MpdModel Mpd3Spec.
Local Open Scope string_scope.
Open Scope Z_scope.

(** Periods per hour: none, one with an offset, or a divisor of an hour that the
    documentation names; 60 at most. *)
Definition period_counts : list Z := [-1; 0; 1; 2; 3; 4; 5; 6; 10; 12; 15; 20; 30; 60].
Definition periods (c : config) : Z := Z.min (c_pph c) 60.
(** [m] of the periods of an hour, evenly *)
Definition evenly (c : config) (m : Z) : Prop := exists k, periods c = k * Z.min m 60.
Definition utc_methods : list string := ["direct"; "head"; "ntp"; "sntp"; "httpxsdate"; "httpiso"].
(** An absolute URL: scheme, host and a path *)
Definition absolute_url (u : string) : Prop :=
  exists scheme rest host first more, split_all "/" u = scheme :: rest :: host :: first :: more.

(** Options that go together *)
Record consistent (c : config) : Prop := {
  segments_last : 0 < c_seg_dur c;
  buffer : c_tsbd c <> None;
  counts : In (periods c) period_counts;
  links : 0 < c_xlink c -> c_pph c <> -1 /\ evenly c (c_xlink c);
  ads : 0 < c_insert_ad c -> 0 < c_xlink c;
  early_ends : 0 < c_etp c -> 0 < c_pph c -> evenly c (c_etp c) /\ (c_etpdur c = -1 \/ c_etpdur c <= 3600 / periods c);
  callbacks : 0 < c_callback c -> 0 < c_pph c -> evenly c (c_callback c) /\ c_add_loc c = false /\ c_multi_url c = [] /\ absolute_url (c_base_url c);
  clocks : Forall (fun m => In m utc_methods) (c_utc c);
  relative : c_add_loc c = true -> c_start_time c <> None /\ c_stop_time c <> None;
  several_urls : c_multi_url c <> [] -> exists scheme body, split_slashes (c_base_url c) = [scheme; body];
  loss : c_stl_loss c = true -> forall u us, c_multi_url c = u :: us ->
         exists a up b down, parse_updown u = Ok ((a, up), (b, down)) /\ up + down <> 0 }.
(** Segments are addressed by number, without segment timelines *)
Definition by_number (c : config) : Prop := c_segtl c = false /\ c_segtlnr c = false.
(** Options that change the profiles *)
Definition uses_profiles (c : config) : Prop := 0 < c_scte35 c \/ c_stl_loss c = true \/ (exists q, c_chunkdur c = Some q /\ Qlt 0 q).
(** A manifest with a Period *)
Definition manifest_with_period (x : xml) : Prop := x_tag x = "MPD" /\ exists p, In p (x_kids x) /\ x_tag p = "Period".

(** Every SegmentTemplate of the source belongs to video or audio and says where its
    segments are. *)
Definition templates_ready (src : xml) : Prop :=
  forall p s t, In p (x_kids src) -> x_tag p = "Period" -> In s (x_kids p) -> x_tag s = "AdaptationSet" ->
    In t (x_kids s) -> x_tag t = "SegmentTemplate" ->
    (get "contentType" s = Some "video" \/ get "contentType" s = Some "audio") /\ get "media" t <> None.
(** How long a period may be, when there are several *)
Definition period_lengths (c : config) : list Z :=
  (3600 / periods c) :: (if 0 <? c_etp c then [if c_etpdur c =? -1 then 3600 / periods c / 2 else c_etpdur c] else []).
(** [t] seconds into the stream the first segment of the loop is over *)
Definition first_over (g : tgen) (t : Z) : Prop := live_end g 0 <= t * tg_timescale g.
(** A session with a stop time lists what there is of it from its start *)
Definition whole_session (c : config) (stop : Z) : Prop := c_stop_time c = Some stop /\ stop <> 0 /\ c_timeoffset c = Some 0.
(** Timelines can be made at time [now] *)
Record listable (c : config) (e : menv) (src : xml) (now : Z) : Prop := {
  templates : templates_ready src;
  tracks : forall ct, In ct ["video"; "audio"] -> exists g, track_table c (me_tables e) ct g /\ gen_ok g
    /\ (forall stop, whole_session c stop -> first_over g (Z.min now stop))
    /\ ((forall stop, ~ whole_session c stop) -> first_over g (now - c_ast c) /\ (0 < periods c -> forall d, In d (period_lengths c) -> first_over g d));
  started : forall stop, whole_session c stop -> exists s, c_start_time c = Some s /\ 0 <= s;
  past : (forall stop, ~ whole_session c stop) -> 0 < periods c -> forall b, c_tsbd c = Some b -> b + c_seg_dur c <= now }.
(** The times of the manifests made for a request at [now]: then, and where losses are
    simulated the ends of the up-times of the minute. *)
Definition manifest_time (c : config) (now t : Z) : Prop :=
  t = now \/ (c_stl_loss c = true /\ t < now /\ exists u us a up b down i, c_multi_url c = u :: us
    /\ parse_updown u = Ok ((a, up), (b, down)) /\ 0 <= i /\ t = now - now mod 60 + (i * (up + down) + up)).
