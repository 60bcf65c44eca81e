(** dashlib/mp4.py: the tables of samples and chunks. *)
From Verif Require Import Base BytesModel ChunkModel.
Open Scope Z_scope.

(** l[i] of Python, also for negative i; as in mp4.py 1588, 1643, 1695 *)
Definition py_idx {A} (l : list A) (i : Z) : result A :=
  let j := if i <? 0 then Z.of_nat (List.length l) + i else i in
  if j <? 0 then Err "IndexError"
  else match nth_error l (Z.to_nat j) with Some x => Ok x | None => Err "IndexError" end.

(** The numbers of [w] bytes in [b] *)
Fixpoint words_of (w n : nat) (b : bytes) : list Z :=
  match n with O => [] | S k => be_val (firstn w b) :: words_of w k (skipn w b) end.
(** mp4.py 1558-1560: Struct of [n] times I (or Q, 1784-1786), unpack of fmap[p:p + struct.size] *)
Definition words_at (w n : Z) (data : bytes) (p : Z) : result (list Z) :=
  let b := bslice p (p + n * w) data in
  if blen b =? n * w then Ok (words_of (Z.to_nat w) (Z.to_nat n) b) else Err "struct.error".

(** mp4.py 1580-1585, 1635-1640, 1743-1748: the search that the comment says is bisect_right *)
Fixpoint search (fuel : nat) (lookup : list Z) (number lo hi : Z) : result Z :=
  match fuel with
  | O => Err "diverges"
  | S f =>
      if lo <? hi then
        let index := (lo + hi) / 2 in
        let* x := py_idx lookup index in
        if number <? x then search f lookup number lo index else search f lookup number (index + 1) hi
      else Ok lo
  end.
(** the same with its start values, mp4.py 1578-1579; the interval gets smaller every turn *)
Definition find_entry (count : Z) (lookup : list Z) (number : Z) : result Z :=
  search (S (Z.to_nat count)) lookup number 0 count.

(** mp4.py 1540-1542 STTSEntry: sample_count, sample_delta, cumulative_delta; and the attributes of stts_box *)
Record stts := mk_stts { st_count : Z; st_entries : list (Z * Z * Z); st_lookup : list Z }.
(** mp4.py 1562-1573: the loop of stts_box.__init__ *)
Fixpoint stts_rows (last : option (Z * Z)) (index cum : Z) (l : list Z) : list (Z * Z * Z) * list Z :=
  match l with
  | count :: delta :: rest =>
      let index := match last with Some (c, _) => index + c | None => index end in
      let cum := match last with Some (c, d) => cum + c * d | None => cum end in
      let (entries, lookup) := stts_rows (Some (count, delta)) index cum rest in
      ((count, delta, cum) :: entries, index :: lookup)
  | _ => ([], [])
  end.
(** mp4.py 1545-1573 stts_box.__init__ *)
Definition stts_at (data : bytes) (o : Z) : result stts :=
  let* _ := full_at data o in
  let* n := u32_at data (o + 12) in
  let* l := words_at 4 (2 * n) data (o + 16) in
  let (entries, lookup) := stts_rows None 1 0 l in
  Ok (mk_stts n entries lookup).
(** mp4.py 1575-1597 sample_time_and_duration *)
Definition sample_time_and_duration (t : stts) (number : Z) : result (Z * Z) :=
  let* r := find_entry (st_count t) (st_lookup t) number in
  let i := r - 1 in
  let* start := py_idx (st_lookup t) i in
  let* (entry, cum) := py_idx (st_entries t) i in
  let delta := snd entry in
  Ok (cum + (number - start) * delta, delta).

(** mp4.py 1600: CTSSEntry: sample_count, sample_offset; and the attributes of ctts_box *)
Record ctts := mk_ctts { ct_count : Z; ct_entries : list (Z * Z); ct_lookup : list Z }.
(** mp4.py 1619-1628: the loop of ctts_box.__init__ *)
Fixpoint ctts_rows (last : option Z) (index : Z) (l : list Z) : list (Z * Z) * list Z :=
  match l with
  | count :: offset :: rest =>
      let index := match last with Some c => index + c | None => index end in
      let (entries, lookup) := ctts_rows (Some count) index rest in
      ((count, offset) :: entries, index :: lookup)
  | _ => ([], [])
  end.
(** mp4.py 1603-1628 ctts_box.__init__; the version plays no part *)
Definition ctts_at (data : bytes) (o : Z) : result ctts :=
  let* _ := full_at data o in
  let* n := u32_at data (o + 12) in
  let* l := words_at 4 (2 * n) data (o + 16) in
  let (entries, lookup) := ctts_rows None 1 l in
  Ok (mk_ctts n entries lookup).
(** mp4.py 1630-1643 sample_offset *)
Definition sample_offset (t : ctts) (number : Z) : result Z :=
  let* r := find_entry (ct_count t) (ct_lookup t) number in
  let* e := py_idx (ct_entries t) (r - 1) in
  Ok (snd e).

(** mp4.py 1646-1655 stss_box: entries *)
Definition stss_at (data : bytes) (o : Z) : result (list Z) :=
  let* _ := full_at data o in
  let* n := u32_at data (o + 12) in
  words_at 4 n data (o + 16).
(** mp4.py 1657-1658 has_index *)
Definition has_index (entries : list Z) (index : Z) : bool := existsb (Z.eqb index) entries.

(** mp4.py 1661-1687 stsz_box: sample_size, sample_sizes, sample_sizes_sum *)
Record stsz := mk_stsz { sz_size : Z; sz_sizes : list Z; sz_sums : list Z }.
(** mp4.py 1677-1681 accumulate *)
Fixpoint accumulate (total : Z) (l : list Z) : list Z :=
  match l with [] => [] | x :: rest => total :: accumulate (total + x) rest end.
(** mp4.py 1662-1687 stsz_box.__init__ *)
Definition stsz_at (data : bytes) (o : Z) : result stsz :=
  let* _ := full_at data o in
  let* size := u32_at data (o + 12) in
  let* n := u32_at data (o + 16) in
  if size =? 0 then
    let* l := words_at 4 n data (o + 20) in
    Ok (mk_stsz size l (accumulate 0 l))
  else Ok (mk_stsz size [] []).
(** mp4.py 1689-1701 sample_size_and_offset *)
Definition sample_size_and_offset (t : stsz) (number index chunk : Z) : result (Z * Z) :=
  if negb (sz_size t =? 0) then Ok (sz_size t, chunk + sz_size t * index)
  else
    let* a := py_idx (sz_sums t) (number - 1) in
    let* b := py_idx (sz_sums t) (number - index - 1) in
    let* size := py_idx (sz_sizes t) (number - 1) in
    Ok (size, chunk + (a - b)).

(** mp4.py 1704-1706 STSCEntry: first_chunk, samples_per_chunk (the description index is not used); and the attributes of stsc_box *)
Record stsc := mk_stsc { sc_count : Z; sc_entries : list (Z * Z); sc_lookup : list Z }.
(** mp4.py 1726-1736: the loop of stsc_box.__init__ *)
Fixpoint stsc_rows (last : option (Z * Z)) (index : Z) (l : list Z) : list (Z * Z) * list Z :=
  match l with
  | first :: per :: _ :: rest =>
      let index := match last with Some (f, p) => index + (first - f) * p | None => index end in
      let (entries, lookup) := stsc_rows (Some (first, per)) index rest in
      ((first, per) :: entries, index :: lookup)
  | _ => ([], [])
  end.
(** mp4.py 1711-1736 stsc_box.__init__ *)
Definition stsc_at (data : bytes) (o : Z) : result stsc :=
  let* _ := full_at data o in
  let* n := u32_at data (o + 12) in
  let* l := words_at 4 (3 * n) data (o + 16) in
  let (entries, lookup) := stsc_rows None 1 l in
  Ok (mk_stsc n entries lookup).
(** mp4.py 1738-1756 chunk_and_index *)
Definition chunk_and_index (t : stsc) (number : Z) : result (Z * Z) :=
  let* r := find_entry (sc_count t) (sc_lookup t) number in
  let* start := py_idx (sc_lookup t) (r - 1) in
  let* (first, per) := py_idx (sc_entries t) (r - 1) in
  let* q := py_div (number - start) per in
  let* m := py_mod (number - start) per in
  Ok (first + q, m).

(** mp4.py 1759-1768 stco_box: entries *)
Definition stco_at (data : bytes) (o : Z) : result (list Z) :=
  let* _ := full_at data o in
  let* n := u32_at data (o + 12) in
  words_at 4 n data (o + 16).
(** mp4.py 1777-1786 co64_box: entries *)
Definition co64_at (data : bytes) (o : Z) : result (list Z) :=
  let* _ := full_at data o in
  let* n := u32_at data (o + 12) in
  words_at 8 n data (o + 16).
(** mp4.py 1770-1774 and 1788-1792 chunk_offset: 0 instead of an IndexError *)
Definition chunk_offset (entries : list Z) (chunk : Z) : Z :=
  match py_idx entries (chunk - 1) with Ok x => x | Err _ => 0 end.
