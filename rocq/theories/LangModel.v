(** The language code of a media header (mdhd): the writers of
    dashlib/boxes.py and dashlib/stpp_generator/stpp_creator.py and the reader
    of dashlib/mp4.py. *)
From Verif Require Import Base BytesModel Mp4Model ChunkModel.
Open Scope Z_scope.

(** [ord(char)]; characters stand for the code points 0..255 of the same number. *)
Definition ord (c : ascii) : Z := Z.of_nat (nat_of_ascii c).

(** boxes.py 25-30 [serialize_u16]: the mask is 0xfffff (20 bits), so values of
    more than 16 bits reach the packer, which raises. *)
Definition serialize_u16 (x : Z) : result bytes :=
  let v := Z.land x 1048575 in
  if v <? 65536 then Ok (be_bytes 2 v) else Err "struct.error".

(** boxes.py 355-360 [make_bits_from_lang_char] *)
Definition make_bits_from_lang_char (char : ascii) : result Z :=
  let bits := Z.land (ord char - 96) 31 in
  let char_back := bits + 96 in
  if negb (char_back =? ord char) then Err "ValueError" else Ok bits.

(** boxes.py 371-377: the try block; [<<] binds before the sum there. *)
Definition lang_bits (lang : string) : result Z :=
  match lang with
  | String a (String b (String c EmptyString)) =>
      let* x := make_bits_from_lang_char a in
      let* y := make_bits_from_lang_char b in
      let* z := make_bits_from_lang_char c in
      Ok (Z.shiftl x 10 + Z.shiftl y 5 + z)
  | _ => Err "ValueError"
  end.

(** boxes.py 344-388, class MDHDBox serialized (116-119): the except clause of
    379-381 catches ValueError only, which is all the try block raises. *)
Definition mdhd_bytes (timescale duration : Z) (lang : string) : result bytes :=
  let code := match lang_bits lang with Ok v => v | Err _ => 21956 end in
  let* l := serialize_u16 code in
  let* p := serialize_u16 0 in
  Ok (serialize_u32 32 ++ bstr "mdhd" ++ serialize_u32 0 ++ serialize_u32 0 ++ serialize_u32 0 ++
      serialize_u32 timescale ++ serialize_u32 duration ++ l ++ p).

(** mp4.py 84-91 [parse_generator]: one [send] of a format of [n] bytes at
    offset [off]; gives the value and the next offset. *)
Definition send_u (n : Z) (data : bytes) (off : Z) : result (Z * Z) :=
  if off <? blen data then
    if off + n <=? blen data then Ok (be_val (bslice off (off + n) data), off + n)
    else Err "struct.error"
  else Err "StopIteration".

(** mp4.py 1079-1093, class mdhd_box: what the constructor of the box of [size]
    bytes at [o] reads: creation and modification time, time scale, duration and
    language.  The three bytes are below 128, so decode() does not raise. *)
Record mdhd := mk_mdhd { md_created : Z; md_modified : Z; md_timescale : Z; md_duration : Z; md_language : string }.
(** [chr(z)] (mp4.py 1093) *)
Definition chr (z : Z) : ascii := ascii_of_nat (Z.to_nat z).
(** mp4.py 1079-1093, class mdhd_box: the constructor *)
Definition mdhd_at (data : bytes) (o size : Z) : result mdhd :=
  let* (version, _) := full_at data o in
  let body := bslice (o + 12) (o + size) data in
  let w := if version =? 0 then 4 else 8 in
  let* (created, i) := send_u w body 0 in
  let* (modified, i) := send_u w body i in
  let* (timescale, i) := send_u 4 body i in
  let* (duration, i) := send_u w body i in
  let* (lang, _) := send_u 2 body i in
  let lang_1 := Z.land (Z.shiftr lang 10) 31 + 96 in
  let lang_2 := Z.land (Z.shiftr lang 5) 31 + 96 in
  let lang_3 := Z.land lang 31 + 96 in
  Ok (mk_mdhd created modified timescale duration
        (String (chr lang_1) (String (chr lang_2) (String (chr lang_3) EmptyString)))).

(** stpp_creator.py 237-257 [_insert_timing_data]; [created] is
    creation_modfication_time, None or a number (0 counts as absent). *)
Definition insert_timing_data (timescale : Z) (created : option Z) (data : bytes) : result bytes :=
  let* version := byte_at 8 data in
  let time := match created with Some t => if t =? 0 then None else Some t | None => None end in
  if version =? 1 then
    let* times := match time with
                  | Some t => let* x := uint64_to_str t in Ok (x ++ x)
                  | None => Ok (bslice 12 28 data)
                  end in
    let* ts := uint32_to_str timescale in
    let* d := uint64_to_str 0 in
    Ok (btake 12 data ++ times ++ ts ++ d)
  else
    let* times := match time with
                  | Some t => let* x := uint32_to_str t in Ok (x ++ x)
                  | None => Ok (bslice 12 20 data)
                  end in
    let* ts := uint32_to_str timescale in
    let* d := uint32_to_str 0 in
    Ok (btake 12 data ++ times ++ ts ++ d).

(** stpp_creator.py 211-223 [process_mdhd] of StppInitFilter *)
Definition stpp_mdhd (lang : string) (timescale : Z) (created : option Z) (data : bytes) : result bytes :=
  let* output := insert_timing_data timescale created data in
  match lang with
  | String a (String b (String c EmptyString)) =>
      let bits := Z.shiftl (ord a - 96) 10 + Z.shiftl (ord b - 96) 5 + (ord c - 96) in
      let* l := uint32_to_str (Z.shiftl bits 16) in
      Ok (output ++ l)
  | _ => Err "AssertionError"
  end.

(** The data attribute of an MP4Filter is a str when the template is one. *)
Inductive pydata := PyStr (code_points : list Z) | PyBytes (b : bytes).
(** structops.py 35-37 on a slice of the data: struct.unpack of a str raises. *)
Definition unpack_u32 (d : pydata) : result Z :=
  match d with PyStr _ => Err "TypeError" | PyBytes b => str_to_uint32 b end.
(** [d[0:8]] (mp4filter.py 77) *)
Definition py_take8 (d : pydata) : pydata :=
  match d with PyStr s => PyStr (firstn 8 s) | PyBytes b => PyBytes (btake 8 b) end.
(** [d[:4]] (mp4filter.py 67) *)
Definition py_take4 (d : pydata) : pydata :=
  match d with PyStr s => PyStr (firstn 4 s) | PyBytes b => PyBytes (btake 4 b) end.
(** [len(d)] (mp4filter.py 76) *)
Definition py_len (d : pydata) : Z :=
  match d with PyStr s => Z.of_nat (List.length s) | PyBytes b => blen b end.
(** mp4filter.py 71-94 [filter] of the two filters of stpp_creator.py, up to and
    with the first check_box (65-69, 76-77); [rest] is what follows it. *)
Definition stpp_filter (data : pydata) (rest : Z -> result bytes) : result bytes :=
  if 0 <? py_len data then
    let* size := unpack_u32 (py_take4 (py_take8 data)) in rest size
  else Ok [].
(** stpp_creator.py 38-41 and 46-64: the first box of the templates
    TTML_MEDIA_TMPL (styp) and TTML_INIT (ftyp); both are str literals.  The
    code points after it do not matter here and are left open. *)
Definition media_tmpl (more : list Z) : pydata :=
  PyStr ([0; 0; 0; 24] ++ bstr "stypmsdh" ++ [0; 0; 0; 0] ++ bstr "msdhdash" ++ more).
(** stpp_creator.py 46-64: TTML_INIT *)
Definition ttml_init (more : list Z) : pydata :=
  PyStr ([0; 0; 0; 24] ++ bstr "ftypiso6" ++ [0; 0; 0; 1] ++ bstr "isomdash" ++ more).
(** stpp_creator.py 260-270 [create_media_segment] and [create_init_segment];
    [rest] is the filter with the arguments stored. *)
Definition create_media_segment (more : list Z) (rest : Z -> result bytes) : result bytes :=
  stpp_filter (media_tmpl more) rest.
(** stpp_creator.py 266-270 [create_init_segment] *)
Definition create_init_segment (more : list Z) (rest : Z -> result bytes) : result bytes :=
  stpp_filter (ttml_init more) rest.
