(** dashlib/mp4.py: the classes that read protection headers (pssh), decoder
    records of HEVC (hvcC) and media adjustments (tfma).  A constructor is given
    the file, the position of the box and its size. *)
From Verif Require Import Base BytesModel ChunkModel TablesModel ReadersModel.
Open Scope Z_scope.

(** mp4.py 377-396 pssh_box: system_id, kids and data_size; ids are the hex text
    of the bytes kept here.  Slices past the end of the file are short. *)
Record pssh := mk_pssh { ps_system : bytes; ps_kids : list bytes; ps_data_size : Z }.
(** mp4.py 389-392: the loop over the key ids; gives the position after it *)
Fixpoint kids_at (n : nat) (data : bytes) (p : Z) : list bytes * Z :=
  match n with
  | O => ([], p)
  | S k => let '(l, q) := kids_at k data (p + 16) in (bslice p (p + 16) data :: l, q)
  end.
(** mp4.py 377-396 pssh_box: the constructor *)
Definition pssh_at (data : bytes) (o : Z) : result pssh :=
  let* (version, _) := full_at data o in
  let system_id := bslice (o + 12) (o + 28) data in
  let* (kids, p) :=
    if 0 <? version then
      let* n := u32_at data (o + 28) in Ok (kids_at (Z.to_nat n) data (o + 28 + 4))
    else Ok ([], o + 28) in
  let* data_size := u32_at data p in
  Ok (mk_pssh system_id kids data_size).
(** mp4.py 399-401: childpos of pssh_box *)
Definition pssh_childpos (o : Z) : Z := o + 32.

(** mp4.py 983-994: an array of NAL units: completeness, type, units (hex text of the bytes) *)
Record nal_array := mk_array { na_complete : Z; na_type : Z; na_units : list bytes }.
(** mp4.py 989-992: the loop over the units *)
Fixpoint nal_units (n : nat) (i : bytes) : result (list bytes * bytes) :=
  match n with
  | O => Ok ([], i)
  | S k =>
      let* (len, i) := send 2 i in
      let* (u, i) := send_bytes (Z.to_nat len) i in
      let* (l, i) := nal_units k i in Ok (u :: l, i)
  end.
(** mp4.py 981-994: the loop over the arrays *)
Fixpoint nal_arrays (n : nat) (i : bytes) : result (list nal_array * bytes) :=
  match n with
  | O => Ok ([], i)
  | S k =>
      let* (tmp, i) := send 1 i in
      let* (num, i) := send 2 i in
      let* (units, i) := nal_units (Z.to_nat num) i in
      let* (l, i) := nal_arrays k i in
      Ok (mk_array (Z.land (Z.shiftr tmp 7) 1) (Z.land tmp 63) units :: l, i)
  end.
(** mp4.py 939-979: the dictionary of hvcC_box; the two flag fields are the hex text of the bytes *)
Record hvcc := mk_hvcc {
  hv_version : Z; hv_space : Z; hv_tier : Z; hv_profile : Z; hv_compat : bytes; hv_constraint : bytes; hv_level : Z;
  hv_spatial : Z; hv_parallel : Z; hv_chroma : Z; hv_luma_depth : Z; hv_chroma_depth : Z; hv_rate : Z;
  hv_constant : Z; hv_layers : Z; hv_nested : Z; hv_length_size : Z; hv_num : Z; hv_arrays : list nal_array }.
(** mp4.py 933-994 hvcC_box: the constructor *)
Definition hvcc_at (data : bytes) (o size : Z) : result hvcc :=
  let i := bslice (o + 8) (o + size) data in
  let* (version, i) := send 1 i in
  let* (tmp, i) := send 1 i in
  let space := Z.land (Z.shiftr tmp 6) 3 in
  let tier := Z.land (Z.shiftr tmp 5) 1 in
  let profile := Z.land tmp 31 in
  let* (compat, i) := send_bytes 4 i in
  let* (constr, i) := send_bytes 6 i in
  let* (level, i) := send 1 i in
  let* (tmp, i) := send 2 i in
  let spatial := Z.land tmp 4095 in
  let* (tmp, i) := send 1 i in
  let parallel := Z.land tmp 3 in
  let* (tmp, i) := send 1 i in
  let chroma := Z.land tmp 3 in
  let* (tmp, i) := send 1 i in
  let luma_depth := Z.land tmp 7 in
  let* (tmp, i) := send 1 i in
  let chroma_depth := Z.land tmp 7 in
  let* (rate, i) := send 2 i in
  let* (tmp, i) := send 1 i in
  let* (num, i) := send 1 i in
  let* (arrays, _) := nal_arrays (Z.to_nat num) i in
  Ok (mk_hvcc version space tier profile compat constr level spatial parallel chroma luma_depth chroma_depth rate
        (Z.land (Z.shiftr tmp 6) 3) (Z.land (Z.shiftr tmp 3) 7) (Z.land (Z.shiftr tmp 2) 1) (Z.land tmp 3) num arrays).

(** send of a signed format of [n] bytes ('>i', '>q'), as in mp4.py 1843 *)
Definition send_signed (n : Z) (rest : bytes) : result (Z * bytes) :=
  let* (v, rest) := send n rest in
  Ok (if v <? 2 ^ (8 * n - 1) then v else v - 2 ^ (8 * n), rest).
(** mp4.py 1846-1849: an entry of tfma_box *)
Record adjustment := mk_adj { aj_duration : Z; aj_time : Z; aj_rate : Z; aj_fraction : Z }.
(** mp4.py 1841-1849: the loop over the entries, fields of [w] bytes *)
Fixpoint adjustments (n : nat) (w : Z) (i : bytes) : result (list adjustment) :=
  match n with
  | O => Ok []
  | S k =>
      let* (d, i) := send w i in
      let* (t, i) := send_signed w i in
      let* (r, i) := send 2 i in
      let* (f, i) := send 2 i in
      let* l := adjustments k w i in Ok (mk_adj d t r f :: l)
  end.
(** mp4.py 1831-1849 tfma_box: entry_count and entries *)
Definition tfma_at (data : bytes) (o size : Z) : result (Z * list adjustment) :=
  let* (version, _) := full_at data o in
  let i := bslice (o + 12) (o + size) data in
  let* (n, i) := send 4 i in
  let* l := adjustments (Z.to_nat n) (if version =? 0 then 4 else 8) i in
  Ok (n, l).
