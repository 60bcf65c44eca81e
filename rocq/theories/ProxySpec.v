(** What is meant by "segment n is available": written from the documentation
    (segment n covers [A+(n-s)d, A+(n-s+1)d), it appears when complete, minus the
    availability time offset, and stays for the time-shift buffer depth plus
    one extra segment duration), without using the model's functions. *)
From Coq Require Import Lqa.
From Verif Require Import Base ConfigModel ProxyModel.

(** The start number: 1 if -1 was given, otherwise the configured number moved by
    the time offset. *)
Definition first_nr (c : config) : Z :=
  if c_start_nr c =? -1 then 1
  else match c_timeoffset c with
       | None => c_start_nr c
       | Some t => c_start_nr c + (c_ast c - t) / c_seg_dur c
       end.

(** Media time (seconds) at the availability start time. *)
Definition media_time_at_ast (c : config) : Z :=
  match c_timeoffset c with None => 0 | Some t => c_ast c - t end.

(** Media time at which segment [n] starts. *)
Definition media_start (c : config) (n : Z) : Z :=
  media_time_at_ast c + (n - first_nr c) * c_seg_dur c.

(** Wall-clock end of segment [n]. *)
Definition seg_end (c : config) (n : Z) : Z :=
  c_ast c + (n - first_nr c + 1) * c_seg_dur c.

(** A stop time was given. *)
Definition has_stop (c : config) : Prop := c_stop_time c <> None.

(** First number that is not served because of the stop time. *)
Definition stop_limit (c : config) (k : Z) : Prop :=
  has_stop c /\ exists m, c_mpdur c = Some m /\
  k = (if c_start_nr c =? -1 then -1 else first_nr c)
      + (match c_timeoffset c with
         | Some t => if c_start_nr c =? -1 then (c_ast c - t) / c_seg_dur c else 0
         | None => 0 end)
      + Qfloor (m / inject_Z (c_seg_dur c)).

(** The configurations produced for well-formed content: positive segment
    duration and loop length, a time-shift depth, and a presentation duration if
    there is a stop time. *)
Record wf_cfg (c : config) : Prop := {
  wf_dur : 0 < c_seg_dur c;
  wf_n : 0 < c_vod_n c;
  wf_tsbd : exists b, c_tsbd c = Some b;
  wf_stop : has_stop c -> exists m, c_mpdur c = Some m
}.

(** The plain availability window with finite offset [a] and depth [b]. *)
Definition window (c : config) (a : Q) (b : Z) (n : Z) (now : Q) : Prop :=
  (inject_Z (seg_end c n) - a <= now /\ now <= inject_Z (seg_end c n + c_seg_dur c + b))%Q.

(** Numbers allowed by the configured end of the session. *)
Definition within_end (c : config) (n : Z) : Prop :=
  (forall k, stop_limit c k -> k <> 0 -> n < k) /\
  (c_last_nrs c <> [] -> (inject_Z n <= last (c_last_nrs c) 0)%Q).

(** The stop number is known and usable (the code treats 0 as "none"). *)
Definition stop_active (c : config) : Prop := exists k, stop_limit c k /\ k <> 0.

Definition in_time (c : config) (n : Z) (now : Q) : Prop :=
  match c_ato c with
  | None => True
  | Some a => (inject_Z (seg_end c n) - a <= now)%Q /\
              (stop_active c \/ forall b, c_tsbd c = Some b ->
                 (now <= inject_Z (seg_end c n + c_seg_dur c + b))%Q)
  end.

(** Number [n] may be delivered at time [now] as far as segment timing goes. *)
Definition available (c : config) (n : Z) (now : Q) : Prop :=
  first_nr c <= n /\ within_end c n /\ in_time c n now.

(** The VoD segment index (0-based in the loop) behind media time [t], and the
    time of the last loop start. *)
Definition loop_start (c : config) (t : Z) : Z := t - t mod (c_seg_dur c * c_vod_n c).
Definition loop_index (c : config) (t : Z) : Z := (t / c_seg_dur c) mod c_vod_n c.

(** Session-level limits checked before the segment itself. *)
Definition session_started (c : config) (now : Q) : Prop :=
  match c_ato c with
  | None => (inject_Z (c_ast c) <= now)%Q
  | Some a => (inject_Z (c_ast c + c_seg_dur c) - a <= now)%Q
  end.
Definition session_not_over (c : config) (now : Q) : Prop :=
  forall e, c_aet c = Some e -> (inject_Z (py_int_of_Q now) <= e + 60)%Q.

(** An ordinary media request for number [n]: a .m4s name that denotes [n], a
    representation, and no up/down simulation. *)
Record media_request (c : config) (n : Z) : Prop := {
  mr_ext : c_ext c = ".m4s"%string;
  mr_nr : request_nr c = Ok n;
  mr_reps : c_reps c <> [];
  mr_url : forall u, c_multi_url c <> [u]
}.
