(** What a SegmentTimeline should list, said without the functions of
    TimelineModel.v: the segments of the loop one by one, repeated for ever. *)
From Verif Require Import Base TimelineModel.
Open Scope Z_scope.

(** The segments of one run, then of the whole table, as (start, duration). *)
Definition run_segs (e : entry) : list (Z * Z) :=
  map (fun r => (e_start e + Z.of_nat r * e_dur e, e_dur e)) (seq 0 (Z.to_nat (e_rep e + 1))).
Definition table_segs (tab : list entry) : list (Z * Z) := flat_map run_segs tab.

(** A table describes a loop: the runs follow each other from number [nr] and
    time [st] to number [nr1] and time [st1], with no gap or overlap. *)
Fixpoint covers (tab : list entry) (nr st nr1 st1 : Z) : Prop :=
  match tab with
  | [] => nr = nr1 /\ st = st1
  | e :: tab' =>
      e_nr e = nr /\ e_start e = st /\ 0 <= e_rep e /\ 0 < e_dur e
      /\ covers tab' (nr + e_rep e + 1) (st + (e_rep e + 1) * e_dur e) nr1 st1
  end.
(** The generator's table fills one loop of the content exactly. *)
Definition gen_ok (g : tgen) : Prop :=
  tg_table g <> [] /\ 0 < tg_timescale g
  /\ covers (tg_table g) (tg_first g) 0 (tg_first g + tg_per_wrap g) (tg_wrap g).

(** The endless sequence of live segments, counted from 0. *)
Definition live_seg (g : tgen) (k : Z) : Z * Z :=
  let n := Z.of_nat (List.length (table_segs (tg_table g))) in
  let '(s, d) := nth (Z.to_nat (k mod n)) (table_segs (tg_table g)) (0, 0) in
  (k / n * tg_wrap g + s, d).
Definition live_start (g : tgen) (k : Z) : Z := fst (live_seg g k).
Definition live_end (g : tgen) (k : Z) : Z := fst (live_seg g k) + snd (live_seg g k).
(** The segments a, a+1, ..., b. *)
Definition live_range (g : tgen) (a b : Z) : list (Z * Z) :=
  map (fun i => live_seg g (a + Z.of_nat i)) (seq 0 (Z.to_nat (b - a + 1))).

(** Which run of the table (0, 1, ...) and which turn of the loop a live
    segment belongs to. *)
Fixpoint run_of (tab : list entry) (i : Z) : Z :=
  match tab with
  | [] => 0
  | e :: tab' => if i <? e_rep e + 1 then 0 else 1 + run_of tab' (i - (e_rep e + 1))
  end.
Definition turn (g : tgen) (k : Z) : Z := k / tg_per_wrap g.
Definition run (g : tgen) (k : Z) : Z := run_of (tg_table g) (k mod tg_per_wrap g).
Definition starts_run (g : tgen) (k : Z) : Prop :=
  turn g (k - 1) <> turn g k \/ run g (k - 1) <> run g k.

(** Reading S elements the way a client does (ISO/IEC 23009-1, 5.3.9.6): an
    element stands for r+1 segments, and starts at t or where the previous one
    ended. *)
Fixpoint s_segs (t d : Z) (n : nat) : list (Z * Z) :=
  match n with O => [] | S m => (t, d) :: s_segs (t + d) d m end.
Fixpoint read_s (now : Z) (l : list selem) : list (Z * Z) :=
  match l with
  | [] => []
  | s :: l' =>
      let t := match s_t s with Some t => t | None => now end in
      let r := match s_r s with Some r => r | None => 0 end in
      s_segs t (s_d s) (Z.to_nat (r + 1)) ++ read_s (t + (r + 1) * s_d s) l'
  end.
Definition read_timeline (l : list selem) : list (Z * Z) := read_s 0 l.

(** The last segment complete at time [e]. *)
Definition last_complete (g : tgen) (e b : Z) : Prop :=
  0 <= b /\ live_end g b <= e /\ e < live_end g (b + 1).
(** The segment playing at time [s]. *)
Definition playing (g : tgen) (s a : Z) : Prop :=
  0 <= a /\ live_start g a <= s < live_end g a.
(** The segment the code starts at: the one playing, but the one before when
    [s] is a boundary inside a run. *)
Definition first_listed (g : tgen) (s a : Z) : Prop :=
  0 <= a /\ ((live_start g a < s <= live_end g a /\ (s = live_end g a -> ~ starts_run g (a + 1)))
             \/ (live_start g a = s /\ starts_run g a)).
(** The window touches no run of the table in two turns of the loop. *)
Definition no_run_twice (g : tgen) (a b : Z) : Prop :=
  turn g a = turn g b \/ (turn g b = turn g a + 1 /\ run g b < run g a).

(** The window from [st] to [en] (seconds) touches no run twice. *)
Definition clean_window (g : tgen) (st en : Z) : Prop :=
  forall a b, first_listed g (st * tg_timescale g) a -> last_complete g (en * tg_timescale g) b ->
              a <= b -> no_run_twice g a b.
(** The table keeps to the nominal grid of [d] second segments: every end is
    less than 0.1 s off (the analyzer's criterion). *)
Definition on_grid (g : tgen) (d : Z) : Prop :=
  tg_wrap g = d * tg_per_wrap g * tg_timescale g
  /\ forall k, 0 <= k < tg_per_wrap g ->
     10 * Z.abs (live_end g k - (k + 1) * d * tg_timescale g) < tg_timescale g.
