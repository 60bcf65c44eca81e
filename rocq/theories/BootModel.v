(** dashlib/mp4.py: the classes that read bootstrap boxes (abst), their run tables
    (asrt, afrt) and random access boxes (afra).  A constructor is given the file,
    the position of the box and its size.  Counts that are kept beside a list are
    left out where they are the length of the list. *)
From Verif Require Import Base BytesModel ChunkModel ReadersModel.
Open Scope Z_scope.

(** for j in range(0, n): one item of the list, as in mp4.py 1931-1934 *)
Fixpoint items {A} (n : nat) (f : bytes -> result (A * bytes)) (i : bytes) : result (list A * bytes) :=
  match n with
  | O => Ok ([], i)
  | S k => let* (x, i) := f i in let* (l, i) := items k f i in Ok (x :: l, i)
  end.
(** mp4.py 2019-2025 [read_string]; the text is given by its bytes *)
Fixpoint zstring (i : bytes) : result (bytes * bytes) :=
  match i with
  | [] => Err "StopIteration"
  | x :: i => if x =? 0 then Ok ([], i) else let* (s, i) := zstring i in Ok (x :: s, i)
  end.

(** mp4.py 1930-1952: time and offset; time, segment, fragment and two offsets *)
Record afra := mk_afra {
  fa_ids : Z; fa_offsets : Z; fa_global : Z; fa_reserved : Z; fa_scale : Z;
  fa_entries : list (Z * Z); fa_globals : list (Z * Z * Z * Z * Z) }.
(** mp4.py 1932-1934 *)
Definition afra_entry (long_offsets : Z) (i : bytes) : result ((Z * Z) * bytes) :=
  let* (time, i) := send 8 i in
  let* (offset, i) := send (if long_offsets =? 0 then 4 else 8) i in Ok ((time, offset), i).
(** mp4.py 1941-1951: all widths by long_ids *)
Definition afra_global (long_ids : Z) (i : bytes) : result ((Z * Z * Z * Z * Z) * bytes) :=
  let* (time, i) := send 8 i in
  let* (segment, i) := send (if long_ids =? 0 then 2 else 4) i in
  let* (fragment, i) := send (if long_ids =? 0 then 2 else 4) i in
  let* (afra_offset, i) := send (if long_ids =? 0 then 4 else 8) i in
  let* (offset_from_afra, i) := send (if long_ids =? 0 then 4 else 8) i in
  Ok ((time, segment, fragment, afra_offset, offset_from_afra), i).
(** mp4.py 1916-1951 afra_box: the constructor *)
Definition afra_at (data : bytes) (o size : Z) : result afra :=
  let* (_, _) := full_at data o in
  let i := bslice (o + 12) (o + size) data in
  let* (byte1, i) := send 1 i in
  let long_ids := Z.land (Z.shiftr byte1 7) 1 in
  let long_offsets := Z.land (Z.shiftr byte1 6) 1 in
  let global_entries := Z.land (Z.shiftr byte1 5) 1 in
  let* (scale, i) := send 4 i in
  let* (n, i) := send 4 i in
  let* (entries, i) := items (Z.to_nat n) (afra_entry long_offsets) i in
  let* (m, i) := if global_entries =? 0 then Ok (0, i) else send 4 i in
  let* (globals, _) := items (Z.to_nat m) (afra_global long_ids) i in
  Ok (mk_afra long_ids long_offsets global_entries (Z.land byte1 31) scale entries globals).

(** mp4.py 1954-1971 asrt_box: qualities and segments *)
Record asrt := mk_asrt { sr_qualities : list bytes; sr_segments : list (Z * Z) }.
(** mp4.py 1969-1971 *)
Definition asrt_entry (i : bytes) : result ((Z * Z) * bytes) :=
  let* (f_seg, i) := send 4 i in let* (frag_per_seg, i) := send 4 i in Ok ((f_seg, frag_per_seg), i).
(** mp4.py 1954-1971 asrt_box: the constructor *)
Definition asrt_at (data : bytes) (o size : Z) : result asrt :=
  let* (_, _) := full_at data o in
  let i := bslice (o + 12) (o + size) data in
  let* (n, i) := send 1 i in
  let* (qualities, i) := items (Z.to_nat n) zstring i in
  let* (m, i) := send 4 i in
  let* (segments, _) := items (Z.to_nat m) asrt_entry i in
  Ok (mk_asrt qualities segments).

(** mp4.py 1990-2016: a fragment run; kept there as text made of these numbers,
    the indicator as a word for it if there is one *)
Record frun := mk_frun { fr_first : Z; fr_time : Z; fr_dur : Z; fr_disc : option Z }.
(** mp4.py 1991-2016 *)
Definition afrt_entry (i : bytes) : result (frun * bytes) :=
  let* (first, i) := send 4 i in
  let* (time, i) := send 8 i in
  let* (dur, i) := send 4 i in
  if dur =? 0 then let* (d, i) := send 1 i in Ok (mk_frun first time dur (Some d), i)
  else Ok (mk_frun first time dur None, i).
(** mp4.py 1974-2016 afrt_box: time_scale, qualities and fragments *)
Record afrt := mk_afrt { ft_scale : Z; ft_qualities : list bytes; ft_runs : list frun }.
(** mp4.py 1974-2016 afrt_box: the constructor *)
Definition afrt_at (data : bytes) (o size : Z) : result afrt :=
  let* (_, _) := full_at data o in
  let i := bslice (o + 12) (o + size) data in
  let* (scale, i) := send 4 i in
  let* (n, i) := send 1 i in
  let* (qualities, i) := items (Z.to_nat n) zstring i in
  let* (m, i) := send 4 i in
  let* (runs, _) := items (Z.to_nat m) afrt_entry i in
  Ok (mk_afrt scale qualities runs).

(** mp4.py 2067-2080 and 2082-2095: the loops over the boxes in a bootstrap box;
    [at_box] is the constructor of the box, [p] is the position self.offset + o. *)
Fixpoint inner_boxes {A} (n : nat) (at_box : bytes -> Z -> Z -> result A) (data : bytes) (p : Z) (i : bytes)
  : result (list A * Z * bytes) :=
  match n with
  | O => Ok ([], p, i)
  | S k =>
      let* (size, i) := send 4 i in
      let* (_, i) := send 4 i in
      let* b := at_box data p size in
      let* (_, i) := send_bytes (Z.to_nat (size - 8)) i in
      let* (lp, i) := inner_boxes k at_box data (p + size) i in
      Ok (b :: fst lp, snd lp, i)
  end.
(** mp4.py 2035-2095: the fields of abst_box *)
Record abst := mk_abst {
  ab_version : Z; ab_profile : Z; ab_live : Z; ab_update : Z; ab_scale : Z; ab_time : Z; ab_smpte : Z; ab_movie : bytes;
  ab_servers : list bytes; ab_quality_count : Z; ab_qualities : list bytes; ab_drm : bytes; ab_meta : bytes;
  ab_segments : list asrt; ab_fragments : list afrt }.
(** the sum of the lengths of texts and their ends, as counted in mp4.py 2053 and 2061 *)
Fixpoint texts_size (l : list bytes) : Z := match l with [] => 0 | s :: l => 1 + blen s + texts_size l end.
(** mp4.py 2028-2095 abst_box: the constructor; the qualities are read as many
    times as there are servers (2058). *)
Definition abst_at (data : bytes) (p size : Z) : result abst :=
  let* (_, _) := full_at data p in
  let i := bslice (p + 12) (p + size) data in
  let* (version, i) := send 4 i in
  let* (byte2, i) := send 1 i in
  let* (scale, i) := send 4 i in
  let* (time, i) := send 8 i in
  let* (smpte, i) := send 8 i in
  let* (movie, i) := zstring i in
  let o := 38 + blen movie in
  let* (servers_n, i) := send 1 i in
  let* (servers, i) := items (Z.to_nat servers_n) zstring i in
  let o := o + 1 + texts_size servers in
  let* (quality_n, i) := send 1 i in
  let* (qualities, i) := items (Z.to_nat servers_n) zstring i in
  let o := o + 1 + texts_size qualities in
  let* (drm, i) := zstring i in
  let* (meta, i) := zstring i in
  let o := o + 2 + blen drm + blen meta in
  let* (n, i) := send 1 i in
  let* (sp, i) := inner_boxes (Z.to_nat n) asrt_at data (p + (o + 1)) i in
  let* (m, i) := send 1 i in
  let* (fp, i) := inner_boxes (Z.to_nat m) afrt_at data (snd sp + 1) i in
  Ok (mk_abst version (Z.land (Z.shiftr byte2 6) 3) (Z.land (Z.shiftr byte2 5) 1) (Z.land (Z.shiftr byte2 4) 1)
        scale time smpte movie servers quality_n qualities drm meta (fst sp) (fst fp)).
