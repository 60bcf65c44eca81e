(** dashlib/mp4.py: what track runs and random access tables say about time
    (trun_box.get_durations, tfra_box, mfro_box).  A box is given by the file and
    its position. *)
From Verif Require Import Base BytesModel ChunkModel ReadersModel.
Open Scope Z_scope.

(** ** trun_box *)
(** mp4.py 1308-1311, 1328-1331: the numbers at [n] places that are [w] bytes apart; the
    range has [n] places, as its step is not 0 when the column is there *)
Fixpoint column (read : bytes -> Z -> result Z) (n : nat) (w : Z) (data : bytes) (p : Z) : result (list Z) :=
  match n with
  | O => Ok []
  | S k => let* x := read data p in let* l := column read k w data (p + w) in Ok (x :: l)
  end.
(** mp4.py 1312: the sum of the durations *)
Definition sum (l : list Z) : Z := fold_left Z.add l 0.
(** mp4.py 1341-1349: the loop over zip(durations, ctos) *)
Fixpoint span (l : list (Z * Z)) (decode lo hi : Z) : Z * Z :=
  match l with
  | [] => (lo, hi)
  | (d, c) :: r =>
      let t := decode + c in
      span r (decode + d) (if t <? lo then t else lo) (if t + d >? hi then t + d else hi)
  end.
(** mp4.py 1333-1349: the presentation range, with the first elements that it starts
    from; itertools.repeat gives as many durations as there are ctos *)
Definition shown (durations ctos : list Z) : result (Z * Z) :=
  match durations, ctos with
  | d :: _, c :: _ => Ok (span (combine durations ctos) 0 c (c + d))
  | _, _ => Err "IndexError"
  end.
(** mp4.py 1293-1355 get_durations, after the constructor (1238-1293, with its errors; the
    fragment is taken to have a tfhd box, which a run without durations asks) *)
Definition get_durations (data : bytes) (o : Z) (default : option Z) : result (Z * Z * Z) :=
  let* t := trun_at data o in
  let f := t_flags t in
  let w := fun b => if Z.testbit f b then 4 else 0 in
  let size := w 8 + w 9 + w 10 + w 11 in
  let n := Z.to_nat (t_count t) in
  let rest := fun durations total =>
    if Z.testbit f 11 then
      let* ctos := column s32_at n size data (t_table t + w 8 + w 9 + w 10) in
      let* (lo, hi) := shown durations ctos in
      Ok (total, lo, hi)
    else Ok (total, 0, total) in
  if Z.testbit f 8 then
    let* durations := column u32_at n size data (t_table t) in
    rest durations (sum durations)
  else
    match default with
    | None => Ok (0, 0, 0)
    | Some d => rest (repeat d n) (d * t_count t)
    end.

(** ** tfra_box *)
(** mp4.py 1398-1427: version, the three sizes and the number of entries.  The
    properties read the file when they are used, here they are read at once. *)
Record tfra := mk_tfra { a_version : Z; a_traf : Z; a_trun : Z; a_sample : Z; a_count : Z }.
(** mp4.py 1392-1427: the constructor and the properties (track_id is [tfra_track]) *)
Definition tfra_at (data : bytes) (o : Z) : result tfra :=
  let* (v, _) := full_at data o in
  let* b := u8_at data (o + 19) in
  let* n := u32_at data (o + 20) in
  Ok (mk_tfra v (Z.shiftr (Z.land b 48) 4) (Z.shiftr (Z.land b 12) 2) (Z.land b 3) n).
(** mp4.py 1398-1401 track_id *)
Definition tfra_track (data : bytes) (o : Z) : result Z := u32_at data (o + 12).
(** mp4.py 1438, 1458: the length of time and moof_offset *)
Definition intro (t : tfra) : Z := if a_version t =? 0 then 4 else 8.
(** mp4.py 1439-1442, 1459-1462 row_length *)
Definition row_length (t : tfra) : Z :=
  2 * intro t + (1 + a_traf t) + (1 + a_trun t) + (1 + a_sample t).
(** mp4.py 1448-1453: the number read with ['>B', '>H', '>BH', '>I'][size]; of the two numbers
    of '>BH' the last one is taken *)
Definition part (size : Z) (rest : bytes) : result (Z * bytes) :=
  let* (x, rest) := send (size + 1) rest in
  Ok (if size =? 2 then x mod 65536 else x, rest).
(** mp4.py 1437-1455 entry.  The box lies in another one, so that its position is at
    least 8 and no slice with index -1 starts before the file. *)
Definition entry (data : bytes) (o index : Z) : result (Z * Z * Z * Z * Z) :=
  let* t := tfra_at data o in
  let start := o + 24 + row_length t * index in
  let p := bslice start (start + row_length t) data in
  let* (time, p) := send (intro t) p in
  let* (moof_offset, p) := send (intro t) p in
  let* (traf, p) := part (a_traf t) p in
  let* (trun, p) := part (a_trun t) p in
  let* (sample, _) := part (a_sample t) p in
  Ok (time, moof_offset, traf, trun, sample).
(** mp4.py 1426-1435 end_time *)
Definition end_time (data : bytes) (o : Z) : result Z :=
  let* t := tfra_at data o in
  if a_count t =? 0 then Ok 0
  else
    let* (last, _, _, _, _) := entry data o (a_count t - 1) in
    let* (prev, _, _, _, _) := entry data o (a_count t - 2) in
    Ok (last + (last - prev)).
(** mp4.py 1466-1475: the loop over the rows; the lists are kept in reverse, with the
    last element in front *)
Fixpoint gather (n : nat) (w len : Z) (data : bytes) (p : Z) (times offsets : list Z) : result (list Z * list Z) :=
  match n with
  | O => Ok (rev times, rev offsets)
  | S k =>
      let read := fun o => if w =? 4 then u32_at data o else u64_at data o in
      let* time := read p in
      let* moof_offset := read (p + w) in
      if match offsets with [] => true | x :: _ => negb (x =? moof_offset) end
      then gather k w len data (p + len) (time :: times) (moof_offset :: offsets)
      else gather k w len data (p + len) times offsets
  end.
(** mp4.py 1457-1475 parse_random_access_table: random_access_time and
    random_access_moof_offset.  Every method calls it while the lists are empty. *)
Definition random_access (data : bytes) (o : Z) : result (list Z * list Z) :=
  let* t := tfra_at data o in
  gather (Z.to_nat (a_count t)) (intro t) (row_length t) data (o + 24) [] [].
(** Python list[i], also for a negative i *)
Definition item (l : list Z) (i : Z) : result Z :=
  let n := Z.of_nat (List.length l) in
  let j := if i <? 0 then i + n else i in
  if j <? 0 then Err "IndexError"
  else match nth_error l (Z.to_nat j) with Some x => Ok x | None => Err "IndexError" end.
(** mp4.py 1477-1484 time_for_fragment *)
Definition time_for_fragment (data : bytes) (o fragment : Z) : result (option Z) :=
  let* (times, _) := random_access data o in
  if Z.of_nat (List.length times) <? fragment then Ok None
  else let* x := item times (fragment - 1) in Ok (Some x).
(** mp4.py 1486-1499 moof_offset_for_fragment; None stands for (None, None) *)
Definition moof_offset_for_fragment (data : bytes) (o fragment : Z) : result (option (Z * Z)) :=
  let* (_, offsets) := random_access data o in
  let n := Z.of_nat (List.length offsets) in
  if n <? fragment then Ok None
  else
    let* offset := item offsets (fragment - 1) in
    if fragment <? n then let* next := item offsets fragment in Ok (Some (offset, next - offset))
    else Ok (Some (offset, 0)).
(** bisect.bisect_left of the standard library, used in mp4.py 1506: the search between
    [lo] and [hi]; [fuel] is the number of steps that there can be at most *)
Fixpoint bisect_left (fuel : nat) (l : list Z) (x : Z) (lo hi : nat) : nat :=
  match fuel with
  | O => lo
  | S k =>
      if Nat.ltb lo hi then
        let mid := Nat.div2 (lo + hi) in
        if nth mid l 0 <? x then bisect_left k l x (S mid) hi else bisect_left k l x lo mid
      else lo
  end.
(** mp4.py 1501-1508 moof_offset_for_time, for a time that is a whole number *)
Definition moof_offset_for_time (data : bytes) (o seek : Z) : result Z :=
  let* (times, offsets) := random_access data o in
  let index := bisect_left (List.length times) times seek 0 (List.length times) in
  item offsets (Z.max (Z.of_nat index - 1) 0).
(** list.index, used in mp4.py 1514 *)
Fixpoint index_of (l : list Z) (x : Z) : result nat :=
  match l with
  | [] => Err "ValueError"
  | y :: r => if y =? x then Ok O else let* i := index_of r x in Ok (S i)
  end.
(** mp4.py 1510-1515 time_for_moof_offset *)
Definition time_for_moof_offset (data : bytes) (o offset : Z) : result Z :=
  let* (times, offsets) := random_access data o in
  let* i := index_of offsets offset in
  item times (Z.of_nat i).
(** mp4.py 1517-1522 fragment_count *)
Definition fragment_count (data : bytes) (o : Z) : result Z :=
  let* (_, offsets) := random_access data o in
  Ok (Z.of_nat (List.length offsets)).

(** ** mfro_box *)
(** mp4.py 1525-1532 mfro_box: mfra_size *)
Definition mfro_at (data : bytes) (o size : Z) : result Z :=
  let* (_, _) := full_at data o in
  let* (n, _) := send 4 (bslice (o + 12) (o + size) data) in
  Ok n.
