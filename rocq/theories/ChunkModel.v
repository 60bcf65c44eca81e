(** dashlib/chunker.py with the parts of dashlib/mp4.py (parser) and
    dashlib/boxes.py (writer) that it uses. *)
From Verif Require Import Base BytesModel InitModel ConfigModel ProxyModel Mp4Model MediaModel SegmentModel.
Open Scope Z_scope.

(** ** mp4.py: the parser *)
(** mp4.py 51-76 CONTAINER_BOXES *)
Definition container_boxes : list bytes :=
  [bstr "root"; bstr "moov"; bstr "moof"; bstr "trak"; bstr "traf"; bstr "tfad"; bstr "mvex"; bstr "mdia"; bstr "minf";
   bstr "dinf"; bstr "stbl"; bstr "mfra"; bstr "udta"; bstr "stsd"; bstr "sinf"; bstr "schi"; bstr "encv"; bstr "enca";
   bstr "avc1"; bstr "hev1"; bstr "hvc1"; bstr "mp4a"; bstr "ac_3"; bstr "ec_3"; bstr "vttc"].

(** A parsed box: type, size, offset and children (120-128). *)
Inductive pbox := PBox (t : bytes) (size offset : Z) (kids : list pbox).
(** mp4.py 123: attribute type *)
Definition p_type (b : pbox) : bytes := let 'PBox t _ _ _ := b in t.
(** mp4.py 125: attribute offset *)
Definition p_offset (b : pbox) : Z := let 'PBox _ _ o _ := b in o.
(** mp4.py 126: attribute children *)
Definition p_kids (b : pbox) : list pbox := let 'PBox _ _ _ k := b in k.

(** Reading 32 and 64 bit numbers of the file: struct.unpack of
    fmap[o:o + 4] or [o:o + 8]. *)
Definition u32_at (data : bytes) (o : Z) : result Z := str_to_uint32 (bslice o (o + 4) data).
(** struct.unpack of ">i" on fmap[o:o + 4], as in mp4.py 1255-1290 *)
Definition s32_at (data : bytes) (o : Z) : result Z := str_to_sint32 (bslice o (o + 4) data).
(** struct.unpack of ">Q" on fmap[o:o + 8], as in mp4.py 1199, 1911 *)
Definition u64_at (data : bytes) (o : Z) : result Z := str_to_uint64 (bslice o (o + 8) data).
(** mp4.py 282-296 full_box: version and flags of a box that is not a uuid box. *)
Definition full_at (data : bytes) (o : Z) : result (Z * Z) :=
  let* v := byte_at 0 (bslice (o + 8) (o + 9) data) in
  let* f := str_to_sint32 (0 :: bslice (o + 9) (o + 12) data) in
  Ok (v, f).

(** mp4.py 1184-1236 tfhd_box: track id, and the optional fields; an absent field is
    None here and 0 with a falsy has_... attribute there. *)
Record tfhd := mk_tfhd { h_track : Z; h_base : option Z; h_dur : option Z; h_size : option Z; h_flags : option Z }.
(** mp4.py 1195-1236 and 1250-1293: a field that is there when its flag is set; gives the position after it *)
Definition opt_at (read : bytes -> Z -> result Z) (bit : bool) (n : Z) (data : bytes) (o : Z) : result (option Z * Z) :=
  if bit then let* v := read data o in Ok (Some v, o + n) else Ok (None, o).
(** mp4.py 1184-1236 tfhd_box: the constructor and its properties *)
Definition tfhd_at (data : bytes) (o : Z) : result tfhd :=
  let* (_, f) := full_at data o in
  let* (base, p) := opt_at u64_at (Z.testbit f 0) 8 data (o + 16) in
  let* (_, p) := opt_at u32_at (Z.testbit f 1) 4 data p in
  let* (dur, p) := opt_at u32_at (Z.testbit f 3) 4 data p in
  let* (size, p) := opt_at u32_at (Z.testbit f 4) 4 data p in
  let* (flags, _) := opt_at u32_at (Z.testbit f 5) 4 data p in
  let* track := u32_at data (o + 12) in
  Ok (mk_tfhd track base dur size flags).
(** mp4.py 1906-1914 tfdt_box *)
Definition tfdt_at (data : bytes) (o : Z) : result Z :=
  let* (v, _) := full_at data o in
  if v =? 0 then u32_at data (o + 12) else u64_at data (o + 12).
(** mp4.py 1238-1293 trun_box: flags, sample count, data offset and the position of
    the table.  The sums over the durations read what sample_entry reads. *)
Record trun := mk_trun { t_flags : Z; t_count : Z; t_data : option Z; t_table : Z }.
(** mp4.py 1238-1293 trun_box: the constructor *)
Definition trun_at (data : bytes) (o : Z) : result trun :=
  let* (_, f) := full_at data o in
  let* (off, p) := opt_at s32_at (Z.testbit f 0) 4 data (o + 16) in
  let* (_, p) := opt_at u32_at (Z.testbit f 2) 4 data p in
  let* n := u32_at data (o + 12) in
  let w := fun b => if Z.testbit f b then 4 else 0 in
  let* _ := opt_at s32_at (Z.testbit f 11) 4 data (p + w 8 + w 9 + w 10) in
  Ok (mk_trun f n off p).
(** mp4.py 1367-1389 sample_entry at the position of the row; the flags are only kept
    as "there is a text" (see [sync] below). *)
Record row := mk_row { e_dur : option Z; e_size : option Z; e_flags : option Z; e_cto : option Z }.
(** mp4.py 1367-1389 sample_entry: one row of the table and the position after it *)
Definition row_at (f : Z) (data : bytes) (p : Z) : result (row * Z) :=
  let* (dur, p) := opt_at u32_at (Z.testbit f 8) 4 data p in
  let* (size, p) := opt_at u32_at (Z.testbit f 9) 4 data p in
  let* (flags, p) := opt_at u32_at (Z.testbit f 10) 4 data p in
  let* (cto, p) := opt_at s32_at (Z.testbit f 11) 4 data p in
  Ok (mk_row dur size flags cto, p).
(** chunker.py 58: map(trun.sample_entry, range(trun.sample_count)) *)
Fixpoint rows_at (n : nat) (f : Z) (data : bytes) (p : Z) : result (list row) :=
  match n with
  | O => Ok []
  | S k => let* (r, p) := row_at f data p in let* l := rows_at k f data p in Ok (r :: l)
  end.

(** The constructor of a box of type [t], for its errors; [before] are the
    children of the parent so far (a trun without durations looks for its tfhd
    there, 1276-1278; with no child at all it parses the parent again and
    again).  Constructors of other types are taken not to raise. *)
Definition construct (t : bytes) (data : bytes) (o : Z) (before : list pbox) : result unit :=
  if bytes_eqb t (bstr "mfhd") then let* _ := u32_at data (o + 12) in Ok tt
  else if bytes_eqb t (bstr "tfhd") then let* _ := tfhd_at data o in Ok tt
  else if bytes_eqb t (bstr "tfdt") then let* _ := tfdt_at data o in Ok tt
  else if bytes_eqb t (bstr "trun") then
    let* r := trun_at data o in
    if Z.testbit (t_flags r) 8 then Ok tt
    else match before with
         | [] => Err "RecursionError"
         | _ => if existsb (fun b => bytes_eqb (p_type b) (bstr "tfhd")) before then Ok tt else Err "AttributeError"
         end
  else Ok tt.

(** mp4.py 222-274 parse_children with recurse=True.  Left out: the other spelling of
    the types ac-3 and ec-3 and the other child positions of stsd and sample
    entries.  Every turn moves forward by 8 bytes at least. *)
Fixpoint parse_kids (fuel : nat) (data : bytes) (self_size pos end_ : Z) (done : list pbox) : result (list pbox) :=
  match fuel with
  | O => Err "diverges"
  | S f =>
      let* size0 := u32_at data pos in
      let t := bslice (pos + 4) (pos + 8) data in
      if negb (blen t =? 4) then Err "struct.error" else
      let* size := if size0 =? 1 then u64_at data (pos + 8) else Ok size0 in
      if (self_size <? size) || (size <? 8) then Ok done
      else if negb (utf8_ok t) then Err "UnicodeDecodeError"
      else
        let* _ := construct t data pos done in
        let* kids := if bytes_in t container_boxes then parse_kids f data size (pos + 8) (pos + size) [] else Ok [] in
        let done := done ++ [PBox t size pos kids] in
        if end_ <=? pos + size then Ok done else parse_kids f data self_size (pos + size) end_ done
  end.
(** mp4.py 311-330: mp4(data) *)
Definition parse_mp4 (data : bytes) : result (list pbox) :=
  parse_kids (S (List.length data)) data (blen data) 0 (blen data) [].

(** mp4.py 172-220 find, for paths of one to three types: the first match, depth
    first; the empty list when there is none, whose attributes raise. *)
Definition kids_of_type (t : string) (l : list pbox) : list pbox := filter (fun b => bytes_eqb (p_type b) (bstr t)) l.
(** mp4.py 172-220 find with return_first: the first match *)
Definition first_box (l : list pbox) : result pbox := match l with b :: _ => Ok b | [] => Err "AttributeError" end.
(** mp4.py 172-220 find for a path of one type *)
Definition find1 (t : string) (l : list pbox) : result pbox := first_box (kids_of_type t l).
(** mp4.py 172-220 find for a path of two types *)
Definition find2 (t u : string) (l : list pbox) : result pbox :=
  first_box (flat_map (fun b => kids_of_type u (p_kids b)) (kids_of_type t l)).
(** mp4.py 172-220 find for a path of three types *)
Definition find3 (t u v : string) (l : list pbox) : result pbox :=
  first_box (flat_map (fun b => kids_of_type v (p_kids b)) (flat_map (fun b => kids_of_type u (p_kids b)) (kids_of_type t l))).

(** ** chunker.py *)
(** boxes.py 89-100 Sample; [s_sync] is the truth value of the attribute. *)
Record sample := mk_sample { s_data : bytes; s_time : Z; s_dur : Z; s_sync : bool; s_cto : Z }.

(** data[n:] for any integer n *)
Definition py_from (n : Z) (d : bytes) : bytes :=
  if n <? 0 then bdrop (Z.max 0 (blen d + n)) d else bdrop n d.
(** [x.a if x.has_a else trex.a]; an init segment without trex leaves the
    attribute unset. *)
Definition default (own : option Z) (trex : option Z) : result Z :=
  match own, trex with
  | Some v, _ => Ok v
  | None, Some v => Ok v
  | None, None => Err "AttributeError"
  end.
(** chunker.py 58-66: the loop over the samples.  The flags of a sample are a
    text ("0x...", mp4.py 1381), which is true; default flags are a number. *)
Fixpoint samples_loop (rows : list row) (ddur dsize dflags : Z) (media : bytes) (t pos : Z) : list sample :=
  match rows with
  | [] => []
  | r :: rest =>
      let dur := match e_dur r with Some v => v | None => ddur end in
      let size := match e_size r with Some v => v | None => dsize end in
      let sync := match e_flags r with Some _ => true | None => negb (dflags =? 0) end in
      let cto := match e_cto r with Some v => v | None => 0 end in
      mk_sample (bslice pos (pos + size) media) t dur sync cto
        :: samples_loop rest ddur dsize dflags media (t + dur) (pos + size)
  end.
(** trex: default_sample_description_index, _duration, _size and _flags of
    initsegmentfilter.py 68-74. *)
Definition trex_data := option (Z * Z * Z * Z).
(** initsegmentfilter.py 72: default_sample_duration *)
Definition trex_dur (t : trex_data) : option Z := match t with Some (_, d, _, _) => Some d | None => None end.
(** initsegmentfilter.py 73: default_sample_size *)
Definition trex_size (t : trex_data) : option Z := match t with Some (_, _, s, _) => Some s | None => None end.
(** initsegmentfilter.py 74: default_sample_flags *)
Definition trex_flags (t : trex_data) : option Z := match t with Some (_, _, _, f) => Some f | None => None end.
(** chunker.py 38-66 decode_fragment.  The generator is read to the end by its
    only user, so an error anywhere in it is an error of [chunk]. *)
Definition decode_fragment (data : bytes) (trex : trex_data) : result (list sample) :=
  let* root := parse_mp4 data in
  let* moof := find1 "moof" root in
  let* hb := find2 "traf" "tfhd" (p_kids moof) in
  let* tb := find2 "traf" "tfdt" (p_kids moof) in
  let* rb := find2 "traf" "trun" (p_kids moof) in
  let* h := tfhd_at data (p_offset hb) in
  let* time := tfdt_at data (p_offset tb) in
  let* r := trun_at data (p_offset rb) in
  let base := match h_base h with Some b => b | None => p_offset moof end in
  let off := match t_data r with Some o => o | None => 0 end in
  let* ddur := default (h_dur h) (trex_dur trex) in
  let* dsize := default (h_size h) (trex_size trex) in
  let* dflags := default (h_flags h) (trex_flags trex) in
  let* rows := rows_at (Z.to_nat (t_count r)) (t_flags r) data (t_table r) in
  Ok (samples_loop rows ddur dsize dflags (py_from (base + off) data) time 0).

(** chunker.py 69-80 partition *)
Fixpoint partition_loop (samples : list sample) (duration d0 d1 : Z) (part : list sample) : list (list sample) :=
  match samples with
  | [] => match part with [] => [] | _ => [part] end
  | s :: rest =>
      if d1 <=? d0
      then part :: partition_loop rest duration (d0 + s_dur s) (d1 + duration) [s]
      else partition_loop rest duration (d0 + s_dur s) d1 (part ++ [s])
  end.
(** chunker.py 69-80 partition: the start of the loop *)
Definition partition (samples : list sample) (duration : Z) : list (list sample) :=
  partition_loop samples duration 0 duration [].

(** boxes.py 34-37 serialize_u32 *)
Definition serialize_u32 (x : Z) : bytes := be_bytes 4 (Z.land x 4294967295).
(** boxes.py 943-998 TRUNBox: the offsets are written when one of them is not 0. *)
Definition use_comp_off (l : list sample) : bool := existsb (fun s => negb (s_cto s =? 0)) l.
(** boxes.py 943-998 TRUNBox: its size *)
Definition trun_size (l : list sample) : Z :=
  20 + Z.of_nat (List.length l) * (12 + (if use_comp_off l then 4 else 0)).
(** boxes.py 943-998 TRUNBox: one sample *)
Definition trun_row (comp : bool) (s : sample) : bytes :=
  serialize_u32 (s_dur s) ++ serialize_u32 (blen (s_data s)) ++
  serialize_u32 (if s_sync s then 33554432 else 16842752) ++
  (if comp then serialize_u32 (s_cto s) else []).
(** boxes.py 943-998 TRUNBox: serialized *)
Definition trun_bytes (l : list sample) (data_offset : Z) : bytes :=
  serialize_u32 (trun_size l) ++ bstr "trun" ++
  serialize_u32 (Z.lor 1793 (if use_comp_off l then 2048 else 0)) ++
  serialize_u32 (Z.of_nat (List.length l)) ++ serialize_u32 data_offset ++
  List.concat (map (trun_row (use_comp_off l)) l).
(** boxes.py 904-920, 923-940, 1001-1015: TFHDBox, TFDTBox, MFHDBox; PACK_U64
    (40-43) raises out of range. *)
Definition tfhd_bytes (track : Z) : bytes :=
  serialize_u32 16 ++ bstr "tfhd" ++ serialize_u32 131072 ++ serialize_u32 track.
(** boxes.py 923-940 TFDTBox: serialized *)
Definition tfdt_bytes (time : Z) : result bytes :=
  let* t := uint64_to_str time in Ok (serialize_u32 20 ++ bstr "tfdt" ++ serialize_u32 16777216 ++ t).
(** boxes.py 1001-1015 MFHDBox: serialized *)
Definition mfhd_bytes (nr : Z) : bytes := serialize_u32 16 ++ bstr "mfhd" ++ serialize_u32 0 ++ serialize_u32 nr.
(** boxes.py 1754-1806 create_moof without encryptor, serialized: 131-148
    BoxContainer.  The data offset is the size of moof and 8. *)
Definition create_moof (nr track : Z) (l : list sample) : result bytes :=
  let* s0 := match l with s :: _ => Ok s | [] => Err "IndexError" end in
  let traf_size := 8 + 16 + 20 + trun_size l in
  let moof_size := 8 + 16 + traf_size in
  let* tfdt := tfdt_bytes (s_time s0) in
  Ok (serialize_u32 moof_size ++ bstr "moof" ++ mfhd_bytes nr ++
      serialize_u32 traf_size ++ bstr "traf" ++ tfhd_bytes track ++ tfdt ++ trun_bytes l (moof_size + 8)).
(** boxes.py 1018-1036 and 1809-1813: MDATBox, create_mdat *)
Definition create_mdat (l : list sample) : bytes :=
  let data := List.concat (map s_data l) in
  serialize_u32 (8 + blen data) ++ bstr "mdat" ++ data.
(** chunker.py 83-85 encode_chunked and 101-104: moof and mdat of each part *)
Fixpoint encode_parts (nr track : Z) (parts : list (list sample)) : result (list bytes) :=
  match parts with
  | [] => Ok []
  | l :: rest =>
      let* moof := create_moof nr track l in
      let* chunks := encode_parts nr track rest in
      Ok ((moof ++ create_mdat l) :: chunks)
  end.
(** chunker.py 83-104 encode_chunked and chunk *)
Definition chunk_segment (data : bytes) (duration : Z) (trex : trex_data) : result (list bytes) :=
  let* root := parse_mp4 data in
  let* mb := find2 "moof" "mfhd" root in
  let* hb := find3 "moof" "traf" "tfhd" root in
  let* nr := u32_at data (p_offset mb + 12) in
  let* track := u32_at data (p_offset hb + 12) in
  let* samples := decode_fragment data trex in
  encode_parts nr track (partition samples duration).

(** ** dash_proxy.py 271-279 and 297-303: the chunked reply (time and chunks).
    [init] is the content of the init file; int() of a float truncates. *)
Definition chunk_ticks (c : config) (r : rep) : result Z :=
  match c_chunkdur c with
  | Some q => Ok (py_int_of_Q (q * inject_Z (rep_timescale r))%Q)
  | None => Err "TypeError"
  end.
(** dash_proxy.py 271-279 and 297-303: the ChunkedSegment of one request *)
Definition chunked_segment (files : file_store) (init : result bytes) (c : config) (sv : served) (now : Z) : result (Z * list bytes) :=
  match c_reps c with
  | r :: _ =>
      let* i := init in
      let* (_, ist) := init_filter i in
      let* dflt := match trex_dur (is_trex ist) with Some d => Ok d | None => Err "AttributeError" end in
      let* seg := filter_media_segment files c r (c_rel_path c) sv (Some dflt) now in
      let* dur := chunk_ticks c r in
      let* chunks := chunk_segment seg dur (is_trex ist) in
      Ok (sv_time sv, chunks)
  | [] => Err "IndexError"
  end.

(** mod_dashlivesim.py 209-227: the times at which the chunks are sent.  The
    clock is taken not to go back.  [schedule]: for each chunk the time that
    passes before time() is called (the client and the process may be slow), and
    the time by which sleep(x) takes longer than x. *)
Fixpoint send_loop (seg_start chunk_dur : Q) (i : Z) (clock : Q) (schedule : list (Q * Q)) : list Q :=
  match schedule with
  | [] => []
  | (pause, late) :: rest =>
      let now_float := (clock + pause)%Q in
      let chunk_availability_time := (seg_start + inject_Z i * chunk_dur - (1 # 10))%Q in
      let time_until_available := (chunk_availability_time - now_float)%Q in
      let clock := if Qltb 0 time_until_available then (now_float + time_until_available + late)%Q else now_float in
      clock :: send_loop seg_start chunk_dur (i + 1) clock rest
  end.
(** mod_dashlivesim.py 209-227: the sending times of all chunks *)
Definition send_times (c : config) (seg_start : Z) (clock : Q) (schedule : list (Q * Q)) : result (list Q) :=
  match c_chunkdur c with
  | Some d => Ok (send_loop (inject_Z seg_start) d 1 clock schedule)
  | None => Err "TypeError"
  end.
(** chunker.py 107-121 simulate_continuous_production: [now_float] is the clock
    at some earlier time. *)
Fixpoint simulate_loop (segment_start chunk_dur : Q) (i : Z) (now_float clock : Q) (schedule : list (Q * Q)) : list Q :=
  match schedule with
  | [] => []
  | (pause, late) :: rest =>
      let clock := (clock + pause)%Q in
      let available := (segment_start + inject_Z i * chunk_dur)%Q in
      if Qltb 0 (available - now_float)%Q
      then let now_float := clock in
           let clock := if Qltb 0 (available - now_float)%Q then (clock + (available - now_float) + late)%Q else clock in
           clock :: simulate_loop segment_start chunk_dur (i + 1) now_float clock rest
      else clock :: simulate_loop segment_start chunk_dur (i + 1) now_float clock rest
  end.
