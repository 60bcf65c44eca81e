(** dashlib/mp4.py: the classes that read the boxes which boxes.py writes.  A
    constructor is given the file, the position of the box and its size.
    Elsewhere: mdhd (LangModel), tfhd, tfdt and trun (ChunkModel), emsg
    (EmsgReadModel), the sample tables (TablesModel). *)
From Verif Require Import Base BytesModel ChunkModel TablesModel.
Open Scope Z_scope.

(** mp4.py 84-91 [parse_generator]: one [send] of a format of [n] bytes; what is left of
    the data stands for the offset. *)
Definition send (n : Z) (rest : bytes) : result (Z * bytes) :=
  match rest with
  | [] => Err "StopIteration"
  | _ => if blen rest <? n then Err "struct.error" else Ok (be_val (btake n rest), bdrop n rest)
  end.
(** [n] times send('>B') (or '>c'), as in mp4.py 899-901, 693-695, 1104-1105, 1802-1803 *)
Fixpoint send_bytes (n : nat) (rest : bytes) : result (bytes * bytes) :=
  match n with
  | O => Ok ([], rest)
  | S k => let* (x, rest) := send 1 rest in let* (l, rest) := send_bytes k rest in Ok (x :: l, rest)
  end.
(** struct.unpack of '>H' on fmap[o:o + 2], as in mp4.py 635 *)
Definition u16_at (data : bytes) (o : Z) : result Z :=
  let b := bslice o (o + 2) data in if blen b =? 2 then Ok (be_val b) else Err "struct.error".
(** struct.unpack of '>h' on fmap[o:o + 2], as in mp4.py 704, 833 *)
Definition s16_at (data : bytes) (o : Z) : result Z :=
  let* v := u16_at data o in Ok (if v <? 32768 then v else v - 65536).
(** struct.unpack of '>B' on fmap[o:o + 1], as in mp4.py 414 *)
Definition u8_at (data : bytes) (o : Z) : result Z :=
  let b := bslice o (o + 1) data in if blen b =? 1 then Ok (be_val b) else Err "struct.error".
(** struct.unpack of '>b' on fmap[o:o + 1], as in mp4.py 517 *)
Definition s8_at (data : bytes) (o : Z) : result Z :=
  let* v := u8_at data o in Ok (if v <? 128 then v else v - 256).

(** mp4.py 366-376 mvhd_box: creation_time, modification_time, timescale, duration; the
    struct is read as one, a short one raises struct.error *)
Definition mvhd_at (data : bytes) (o : Z) : result (Z * Z * Z * Z) :=
  let* (version, _) := full_at data o in
  if version =? 0 then
    let* c := u32_at data (o + 12) in let* m := u32_at data (o + 16) in
    let* t := u32_at data (o + 20) in let* d := u32_at data (o + 24) in Ok (c, m, t, d)
  else
    let* c := u64_at data (o + 12) in let* m := u64_at data (o + 20) in
    let* t := u32_at data (o + 28) in let* d := u64_at data (o + 32) in Ok (c, m, t, d).

(** mp4.py 1055-1076 tkhd_box: track_id, duration, width, height *)
Definition tkhd_at (data : bytes) (o size : Z) : result (Z * Z * Z * Z) :=
  let* (version, _) := full_at data o in
  let w := if version =? 0 then 4 else 8 in
  let i := bslice (o + 12) (o + size) data in
  let* (_, i) := send w i in
  let* (_, i) := send w i in
  let* (track, i) := send 4 i in
  let* (_, i) := send 4 i in
  let* (duration, i) := send w i in
  let* i := (fix go n i := match n with O => Ok i | S k => let* (_, i) := send 4 i in go k i end) 13%nat i in
  let* (width, i) := send 4 i in
  let* (height, _) := send 4 i in
  Ok (track, duration, Z.shiftr width 16, Z.shiftr height 16).

(** mp4.py 1096-1118 hdlr_box: handler_type, encoding_name; chr of each byte, kept as bytes.
    A negative [rest] gives no turns. *)
Definition hdlr_at (data : bytes) (o size : Z) : result (bytes * bytes) :=
  let* _ := full_at data o in
  let i := bslice (o + 12) (o + size) data in
  let* (_, i) := send 4 i in
  let* (handler, i) := send_bytes 4 i in
  let* (_, i) := send 4 i in
  let* (_, i) := send 4 i in
  let* (_, i) := send 4 i in
  let* (name, _) := send_bytes (Z.to_nat (size - 12 - 20)) i in
  Ok (handler, name).

(** mp4.py 1135-1143 trex_box: track_id, default_sample_description_index, .._duration, .._size, .._flags *)
Definition trex_at (data : bytes) (o : Z) : result (Z * Z * Z * Z * Z) :=
  let* _ := full_at data o in
  let* a := u32_at data (o + 12) in let* b := u32_at data (o + 16) in let* c := u32_at data (o + 20) in
  let* d := u32_at data (o + 24) in let* e := u32_at data (o + 28) in Ok (a, b, c, d, e).

(** mp4.py 1146-1150 mfhd_box: seqno *)
Definition mfhd_at (data : bytes) (o : Z) : result Z := u32_at data (o + 12).

(** mp4.py 629-636 SampleEntry: data_reference_index *)
Definition data_reference_index (data : bytes) (o : Z) : result Z := u16_at data (o + 14).

(** mp4.py 701-709 mp4a_box, 716-724 ac_3_box and 731-739 ec_3_box: channels, sample_size, sample_rate *)
Definition audio_at (data : bytes) (o : Z) : result (Z * Z * Z) :=
  let* c := s16_at data (o + 24) in
  let* s := s16_at data (o + 26) in
  let* r := u32_at data (o + 32) in
  Ok (c, s, Z.shiftr r 16).

(** mp4.py 746-759 dac3_box and 773-812 dec3_box: [bitreader] is the module imported in
    line 48, and calling it raises *)
Definition dac3_at (data : bytes) (o size : Z) : result unit := Err "TypeError".

(** mp4.py 829-849 avcx_box (avc1, avc3, hev1, hvc1, encv): width, height, res_hori,
    res_vert, frame_count, depth; left out is compressor, str of a slice *)
Record avcx := mk_avcx { av_width : Z; av_height : Z; av_hori : Z; av_vert : Z; av_frames : Z; av_depth : Z }.
(** mp4.py 829-849 avcx_box: the constructor *)
Definition avcx_at (data : bytes) (o : Z) : result avcx :=
  let* w := s16_at data (o + 32) in
  let* h := s16_at data (o + 34) in
  let* rh := u32_at data (o + 36) in
  let* rv := u32_at data (o + 40) in
  let* f := s16_at data (o + 48) in
  let* d := s16_at data (o + 82) in
  Ok (mk_avcx w h rh rv f d).

(** mp4.py 897-901 and 910-914: [n] parameter sets one after the other *)
Fixpoint parameter_sets (n : nat) (i : bytes) : result (bytes * bytes) :=
  match n with
  | O => Ok ([], i)
  | S k =>
      let* (size, i) := send 2 i in
      let* (a, i) := send_bytes (Z.to_nat size) i in
      let* (b, i) := parameter_sets k i in
      Ok (a ++ b, i)
  end.
(** mp4.py 879-922 avcC_box: the attributes as bytes; sps and pps are the hex text of sps_bin and pps_bin *)
Record avcc := mk_avcc { ac_version : Z; ac_profile : Z; ac_compat : Z; ac_level : Z; ac_nsps : Z; ac_sps : bytes; ac_npps : Z; ac_pps : bytes }.
(** mp4.py 879-922 avcC_box: the constructor *)
Definition avcc_at (data : bytes) (o size : Z) : result avcc :=
  let i := bslice (o + 8) (o + size) data in
  let* (version, i) := send 1 i in
  let* (profile, i) := send 1 i in
  let* (compat, i) := send 1 i in
  let* (level, i) := send 1 i in
  let* (_, i) := send 1 i in
  let* (tmp1, i) := send 1 i in
  let num_sps := Z.land tmp1 31 in
  let* (sps, i) := parameter_sets (Z.to_nat num_sps) i in
  let* (tmp2, i) := send 1 i in
  let num_pps := Z.land tmp2 31 in
  let* (pps, _) := parameter_sets (Z.to_nat num_pps) i in
  Ok (mk_avcc version profile compat level num_sps sps num_pps pps).

(** mp4.py 639-648 getDescriptorLen; every turn takes a byte *)
Fixpoint descriptor_len (fuel : nat) (len : Z) (i : bytes) : result (Z * bytes) :=
  match fuel with
  | O => Err "diverges"
  | S k =>
      let* (tmp, i) := send 1 i in
      let len := Z.lor (Z.shiftl len 7) (Z.land tmp 127) in
      if Z.land tmp 128 =? 0 then Ok (len, i) else descriptor_len k len i
  end.
(** mp4.py 651-698 esds_box: es_id, obj_type, stream_type and cfg; None where there is no
    such descriptor.  cfg is the text 0x.. of the bytes. *)
Record esds := mk_esds { es_id : option Z; es_type : option (Z * Z); es_cfg : option bytes }.
(** mp4.py 651-698 esds_box: the constructor *)
Definition esds_at (data : bytes) (o size : Z) : result esds :=
  let i := bslice (o + 8) (o + size) data in
  let fuel := S (List.length i) in
  let* (_, i) := send 4 i in
  let* (tag1, i) := send 1 i in
  if negb (tag1 =? 3) then Ok (mk_esds None None None) else
  let* (_, i) := descriptor_len fuel 0 i in
  let* (a, i) := send 1 i in
  let* (b, i) := send 1 i in
  let id := Z.lor (Z.shiftl a 8) b in
  let* (_, i) := send 1 i in
  let* (tag2, i) := send 1 i in
  if negb (tag2 =? 4) then Ok (mk_esds (Some id) None None) else
  let* (_, i) := descriptor_len fuel 0 i in
  let* (obj, i) := send 1 i in
  let* (stream, i) := send 1 i in
  let* (_, i) := send 1 i in
  let* (_, i) := send 1 i in
  let* (_, i) := send 4 i in
  let* (_, i) := send 4 i in
  let* (_, i) := send 1 i in
  let* (tag3, i) := send 1 i in
  if negb (tag3 =? 5) then Ok (mk_esds (Some id) (Some (obj, stream)) None) else
  let* (len, i) := descriptor_len fuel 0 i in
  let* (cfg, _) := send_bytes (Z.to_nat len) i in
  Ok (mk_esds (Some id) (Some (obj, stream)) (Some cfg)).

(** mp4.py 997-1004 stsd_box: entry_count *)
Definition stsd_count (data : bytes) (o : Z) : result Z := u32_at data (o + 12).

(** mp4.py 411, 420, 431, 447, 455: [self.flags and 1] is 1 for all flags but 0 *)
Definition aux_offset (flags : Z) : Z := if flags =? 0 then 0 else 8.
(** mp4.py 409-415 default_sample_info_size *)
Definition saiz_default (data : bytes) (o : Z) : result Z :=
  let* (_, flags) := full_at data o in u8_at data (o + 12 + aux_offset flags).
(** mp4.py 418-425 sample_count *)
Definition saiz_count (data : bytes) (o : Z) : result Z :=
  let* (_, flags) := full_at data o in u32_at data (o + 13 + aux_offset flags).
(** mp4.py 426-437 sample_info_size *)
Definition saiz_size (data : bytes) (o index : Z) : result Z :=
  let* d := saiz_default data o in
  if negb (d =? 0) then Ok d
  else let* (_, flags) := full_at data o in u8_at data (o + 17 + aux_offset flags + index).
(** mp4.py 445-451 entry_count *)
Definition saio_count (data : bytes) (o : Z) : result Z :=
  let* (_, flags) := full_at data o in u32_at data (o + 12 + aux_offset flags).
(** mp4.py 453-463 entry_offset *)
Definition saio_offset (data : bytes) (o index : Z) : result Z :=
  let* (_, flags) := full_at data o in
  if flags =? 0 then u32_at data (o + 16 + index * 4) else u64_at data (o + 16 + 8 + index * 8).

(** mp4.py 471-472 and 498-499 grouping_type *)
Definition grouping_type (data : bytes) (o : Z) : bytes := bslice (o + 12) (o + 16) data.
(** mp4.py 474-477 entries of sbgp *)
Definition sbgp_entries (data : bytes) (o : Z) : result Z := u32_at data (o + 16).
(** mp4.py 479-490 group_entry *)
Definition group_entry (data : bytes) (o size index : Z) : result (Z * Z) :=
  let* (version, _) := full_at data o in
  let p := 20 + (if version =? 0 then 0 else 4) + 8 * index in
  if size <? p then Ok (0, 0)
  else let* a := u32_at data (o + p) in let* b := u32_at data (o + p + 4) in Ok (a, b).
(** mp4.py 502-505 entries of sgpd *)
Definition sgpd_entries (data : bytes) (o : Z) : result Z :=
  let* (version, _) := full_at data o in u32_at data (o + (if version =? 0 then 0 else 4) + 16).
(** mp4.py 507-521 entry: is_encrypted, iv_size, kid *)
Definition sgpd_entry (data : bytes) (o size index : Z) : result (Z * Z * bytes) :=
  let* (version, _) := full_at data o in
  let p := 20 + (if version =? 0 then 0 else 4) + 20 * index in
  if size <? p then Ok (0, 0, [])
  else
    let* enc := str_to_sint32 (0 :: bslice (o + p) (o + p + 3) data) in
    let* iv := s8_at data (o + p + 3) in
    Ok (enc, iv, bslice (o + p + 4) (o + p + 20) data).

(** mp4.py 533-543 senc_box: the initialization vectors; samples is their hex text *)
Definition senc_at (data : bytes) (o : Z) : result (list Z) :=
  let* _ := full_at data o in
  let* n := u32_at data (o + 12) in
  words_at 8 n data (o + 16).

(** mp4.py 1873-1895: one entry of references: whether it is a sidx, size, duration, starts-with-sap, sap-type, sap-delta-time *)
Record reference := mk_reference { f_sidx : bool; f_size : Z; f_duration : Z; f_starts : Z; f_sap : Z; f_delta : Z }.
(** mp4.py 1873-1895: the loop *)
Fixpoint references (n : nat) (i : bytes) : result (list reference) :=
  match n with
  | O => Ok []
  | S k =>
      let* (b1, i) := send 4 i in
      let* (d, i) := send 4 i in
      let* (b3, i) := send 4 i in
      let* l := references k i in
      Ok (mk_reference (negb (Z.land (Z.shiftr b1 31) 1 =? 0)) (Z.land b1 2147483647) d
            (Z.land (Z.shiftr b3 31) 1) (Z.land (Z.shiftr b3 28) 7) (Z.land b3 268435455) :: l)
  end.
(** mp4.py 1857-1895 sidx_box: reference_track_id, timescale, first_pres_time, first_offset, references *)
Record sidx := mk_sidx { x_track : Z; x_timescale : Z; x_first : Z; x_offset : Z; x_refs : list reference }.
(** mp4.py 1857-1895 sidx_box: the constructor *)
Definition sidx_at (data : bytes) (o size : Z) : result sidx :=
  let* (version, _) := full_at data o in
  let w := if version =? 0 then 4 else 8 in
  let i := bslice (o + 12) (o + size) data in
  let* (track, i) := send 4 i in
  let* (timescale, i) := send 4 i in
  let* (first, i) := send w i in
  let* (offset, i) := send w i in
  let* (_, i) := send 2 i in
  let* (n, i) := send 2 i in
  let* l := references (Z.to_nat n) i in
  Ok (mk_sidx track timescale first offset l).

(** mp4.py 1808-1810: [n] brands *)
Fixpoint send_brands (n : nat) (i : bytes) : result (list bytes) :=
  match n with
  | O => Ok []
  | S k => let* (b, i) := send_bytes 4 i in let* l := send_brands k i in Ok (b :: l)
  end.
(** mp4.py 1795-1810 ftyp_box and 1813-1828 styp_box: major_brand, minor_version, brands *)
Definition ftyp_at (data : bytes) (o size : Z) : result (bytes * Z * list bytes) :=
  let i := bslice (o + 8) (o + size) data in
  let* (major, i) := send_bytes 4 i in
  let* (minor, i) := send 4 i in
  let* l := send_brands (Z.to_nat ((size - 16) / 4)) i in
  Ok (major, minor, l).

(** mp4.py 2103-2106 payl_box: cue_text *)
Definition payl_at (data : bytes) (o size : Z) : bytes := bslice (o + 8) (o + size) data.
