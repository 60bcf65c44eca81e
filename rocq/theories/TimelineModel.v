(** dashlib/segtimeline.py: generation of SegmentTimeline elements. *)
From Verif Require Import Base ConfigModel.
Open Scope Z_scope.

(** configprocessor.py 46-47: one run of equal durations, (nr, repeat, start,
    duration). *)
Record entry := mk_entry { e_nr : Z; e_rep : Z; e_start : Z; e_dur : Z }.
(** segtimeline.py 49-68: the attributes of SegmentTimeLineGenerator.  The table
    is the content of the dat file (see VodModel.v for its bytes);
    interval_starts is computed from it. *)
Record tgen := mk_tgen {
  tg_timescale : Z;
  tg_table : list entry;
  tg_wrap : Z;
  tg_per_wrap : Z;
  tg_first : Z
}.
(** segtimeline.py 64: interval_starts *)
Definition starts (g : tgen) : list Z := map e_start (tg_table g).
(** [len(self.segtimedata)] *)
Definition tlen (g : tgen) : Z := Z.of_nat (List.length (tg_table g)).
(** [self.segtimedata[i]]; a negative index counts from the end. *)
Definition entry_at (g : tgen) (i : Z) : result entry :=
  let j := if i <? 0 then i + tlen g else i in
  if j <? 0 then Err "IndexError"
  else match nth_error (tg_table g) (Z.to_nat j) with Some e => Ok e | None => Err "IndexError" end.

(** bisect.bisect (bisect_right of the standard library): lo and hi of the
    binary search.  The interval gets smaller in each step, so [fuel] = length
    + 1 is enough. *)
Fixpoint bisect_loop (fuel : nat) (a : list Z) (x lo hi : Z) : Z :=
  match fuel with
  | O => lo
  | S f =>
      if lo <? hi then
        let mid := (lo + hi) / 2 in
        if x <? nth (Z.to_nat mid) a 0 then bisect_loop f a x lo mid
        else bisect_loop f a x (mid + 1) hi
      else lo
  end.
(** [bisect.bisect(a, x)] (segtimeline.py 168) *)
Definition bisect (a : list Z) (x : Z) : Z :=
  bisect_loop (S (List.length a)) a x 0 (Z.of_nat (List.length a)).

(** segtimeline.py 147-150 [get_seg_starttime] *)
Definition seg_starttime (g : tgen) (wraps i r : Z) : result Z :=
  let* e := entry_at g i in Ok (wraps * tg_wrap g + e_start e + r * e_dur e).
(** segtimeline.py 158-161 [get_seg_endtime] *)
Definition seg_endtime (g : tgen) (wraps i r : Z) : result Z :=
  let* e := entry_at g i in Ok (wraps * tg_wrap g + e_start e + (r + 1) * e_dur e).
(** segtimeline.py 152-156 [get_seg_number] *)
Definition seg_number (g : tgen) (wraps i r : Z) : result Z :=
  let* e := entry_at g i in Ok (wraps * tg_per_wrap g + e_nr e + r - tg_first g).

(** segtimeline.py 171-174: the loop counting repeats; unbounded when the duration is
    0 ("diverges"); the fuel given below is enough otherwise. *)
Fixpoint repeat_loop (fuel : nat) (acc dur rel r : Z) : result Z :=
  match fuel with
  | O => Err "diverges"
  | S f => if acc <? rel then repeat_loop f (acc + dur) dur rel (r + 1) else Ok r
  end.
(** A position is (index, repeats, wraps); None stands for (None, None, None). *)
Definition position := (Z * Z * Z)%type.
(** segtimeline.py 163-175 [find_latest_starting_before]; divmod by a zero
    wrap_duration raises, otherwise it is floor division, Coq's [/] and [mod]. *)
Definition find_latest (g : tgen) (act : Z) : result (option position) :=
  if tg_wrap g =? 0 then Err "ZeroDivisionError"
  else
    let wraps := act / tg_wrap g in
    let rel := act mod tg_wrap g in
    if wraps <? 0 then Ok None
    else
      let i := bisect (starts g) rel - 1 in
      let* e := entry_at g i in
      let acc := e_start e + e_dur e in
      let* r := repeat_loop (S (S (Z.to_nat ((rel - acc) / e_dur e)))) acc (e_dur e) rel 0 in
      Ok (Some (i, r, wraps)).
(** segtimeline.py 188-193: the loop of find_closest_start, from [r] repeats at
    [start]; None when the loop ends without a return. *)
Fixpoint closest_loop (fuel : nat) (start dur rel r rep : Z) : option Z :=
  match fuel with
  | O => None
  | S f =>
      if r <? rep then
        let r1 := r + 1 in
        let s1 := start + dur in
        if Z.abs (rel - s1) <=? dur / 2 then Some r1 else closest_loop f s1 dur rel r1 rep
      else None
  end.
(** segtimeline.py 177-199 [find_closest_start] *)
Definition find_closest (g : tgen) (act : Z) : result (option position) :=
  if tg_wrap g =? 0 then Err "ZeroDivisionError"
  else
    let wraps := act / tg_wrap g in
    let rel := act mod tg_wrap g in
    if wraps <? 0 then Ok None
    else
      let i := bisect (starts g) rel - 1 in
      let* e := entry_at g i in
      if Z.abs (rel - e_start e) <=? e_dur e / 2 then Ok (Some (i, 0, wraps))
      else
        match closest_loop (S (Z.to_nat (e_rep e))) (e_start e) (e_dur e) rel 0 (e_rep e) with
        | Some r => Ok (Some (i, r, wraps))
        | None =>
            let i1 := i + 1 in
            let '(i2, w2) := if tlen g <=? i1 then (0, wraps + 1) else (i1, wraps) in
            let* e2 := entry_at g i2 in
            Ok (Some (i2, e_rep e2, w2))
        end.

(** segtimeline.py 225-234: an S element; r is written when positive. *)
Record selem := mk_selem { s_t : option Z; s_d : Z; s_r : option Z }.
(** segtimeline.py 225-234 [generate_s_elem] *)
Definition s_elem (t : option Z) (d rep : Z) : selem :=
  mk_selem t d (if 0 <? rep then Some rep else None).

(** segtimeline.py 85-100: moving back until the segment ends at or before [e]; None is
    the return of line 99. *)
Fixpoint end_loop (fuel : nat) (g : tgen) (e i r w : Z) : result (option position) :=
  match fuel with
  | O => Err "diverges"
  | S f =>
      let* tics := seg_endtime g w i r in
      if e <? tics then
        if 0 <? r then end_loop f g e i (r - 1) w
        else if 0 <? i then
          let* en := entry_at g (i - 1) in end_loop f g e (i - 1) (e_rep en) w
        else
          let i1 := tlen g - 1 in
          let* en := entry_at g i1 in
          if w - 1 <? 0 then Ok None else end_loop f g e i1 (e_rep en) (w - 1)
      else Ok (Some (i, r, w))
  end.
(** Each step goes one segment back. *)
Definition end_fuel (g : tgen) (r w : Z) : nat :=
  Z.to_nat (r + (w + 2) * fold_right (fun e n => n + (e_rep e + 1)) 1 (tg_table g)) + 2.

(** segtimeline.py 119-130: the S elements after the first one, inserted in front of
    [acc]; the elements are those of the positions between (end) and
    (start), going back. *)
Fixpoint s_loop (fuel : nat) (g : tgen) (ei er si sw i w : Z) (acc : list selem) : result (list selem) :=
  match fuel with
  | O => Err "diverges"
  | S f =>
      if (negb (i =? si)) || (negb (w =? sw)) then
        let* en := entry_at g i in
        let s := if i =? ei then s_elem None (e_dur en) er else s_elem None (e_dur en) (e_rep en) in
        if i - 1 <? 0 then s_loop f g ei er si sw (tlen g - 1) (w - 1) (s :: acc)
        else s_loop f g ei er si sw (i - 1) w (s :: acc)
      else Ok acc
  end.
(** Enough turns for the loop of segtimeline.py 119-130. *)
Definition s_fuel (g : tgen) (ei ew si sw : Z) : nat := Z.to_nat ((ew - sw) * tlen g + ei - si) + 1.

(** What create_segtimeline returns: the tuple of segtimeline.py 99, or an element with
    S children; with the value of self.start_number afterwards. *)
Inductive timeline :=
| NoTimeline
| Timeline (l : list selem) (start_number : option Z).

(** segtimeline.py 70-145 [create_segtimeline]; [sn0] is self.start_number before the
    call. *)
Definition create_segtimeline (g : tgen) (start_time end_time : Z) (use_closest : bool) (sn0 : option Z)
    : result timeline :=
  let start := start_time * tg_timescale g in
  let endt := end_time * tg_timescale g in
  let* oe := find_latest g endt in
  match oe with
  | None => Err "SegmentTimeLineGeneratorError"
  | Some (ei0, er0, ew0) =>
      let* oe2 := end_loop (end_fuel g er0 ew0) g endt ei0 er0 ew0 in
      match oe2 with
      | None => Ok NoTimeline
      | Some (ei, er, ew) =>
          let* os := if use_closest then find_closest g start else find_latest g start in
          match os with
          | None => Err "TypeError"
          | Some (si, sr, sw) =>
              let* start_tics := seg_starttime g sw si sr in
              let* start_tics_end := seg_starttime g ew ei er in
              if start_tics_end <? start_tics then Ok (Timeline [] sn0)
              else
                let* acc := s_loop (s_fuel g ei ew si sw) g ei er si sw ei ew [] in
                let* en := entry_at g si in
                let* t0 := seg_starttime g sw si sr in
                let* e0 := entry_at g 0 in
                let nr :=
                  if negb (si =? ei) then e_rep en - sr
                  else if (tlen g =? 1) && (er <? sr) then e_rep e0 + er - sr
                  else er - sr in
                let* n := seg_number g sw si sr in
                Ok (Timeline (s_elem (Some t0) (e_dur en) nr :: acc) (Some n))
          end
      end
  end.

(** The generator for one content type, lines 49-69: timescale from media_data,
    the rest from the configuration. *)
Definition generator (c : config) (timescale : Z) (table : list entry) : tgen :=
  mk_tgen timescale table (c_wrap_secs c * timescale) (c_vod_n c) (c_vod_first c).
(** mpdprocessor.py 370-386: start and end of the listing and use_closest, for
    a period starting [start_s] seconds after the availability start time, with
    or without a duration.  A missing depth or start time is a TypeError. *)
Definition segtimeline_window (c : config) (now start_s : Z) (pdur : option Z) : result (Z * Z * bool) :=
  match c_tsbd c with
  | None => Err "TypeError"
  | Some tsbd =>
      let st := Z.max (c_ast c + start_s) (now - tsbd) in
      let en := match pdur with Some p => Z.min (c_ast c + start_s + p) now | None => now end in
      match c_stop_time c, c_timeoffset c with
      | Some stop, Some 0 =>
          if stop =? 0 then Ok (st - c_ast c, en - c_ast c, false)
          else match c_start_time c with
               | None => Err "TypeError"
               | Some s => Ok (s, Z.min now stop, true)
               end
      | _, _ => Ok (st - c_ast c, en - c_ast c, false)
      end
  end.
