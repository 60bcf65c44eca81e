(** dashlib/mediasegmentfilter.py: MediaSegmentFilter, and
    dash_proxy.py 307-323 [filter_media_segment]. *)
From Verif Require Import Base BytesModel Mp4Model EmsgModel TtmlModel TimeModel.
Open Scope Z_scope.

(** Constructor arguments, mediasegmentfilter.py 53-75 (file_name and rel_path
    left out: the file content is an argument). *)
Record mparams := mk_mparams {
  mp_seg_nr : option Z;
  mp_seg_duration : Z;
  mp_offset : Z;
  mp_lmsg : bool;
  mp_timescale : option Z;
  mp_scte35 : Z;
  mp_is_ttml : bool;
  mp_default_dur : option Z;
  mp_insert_sidx : bool;
  mp_emsg_last : bool;
  mp_now : Q
}.

(** Attributes that methods change. *)
Record mstate := mk_mstate {
  ms_size_change : Z;
  ms_saio : option Z;
  ms_tfdt : option Z;
  ms_default_dur : option Z;
  ms_duration : option Z;
  ms_ttml_size : option Z
}.
(** mediasegmentfilter.py 53-77: the attributes after the constructor *)
Definition m_init (p : mparams) (ttml : option Z) : mstate :=
  mk_mstate 0 None None (mp_default_dur p) None ttml.
(** [self.default_sample_duration = d] (mediasegmentfilter.py 139) *)
Definition ms_with_default (d : option Z) (s : mstate) : mstate :=
  mk_mstate (ms_size_change s) (ms_saio s) (ms_tfdt s) d (ms_duration s) (ms_ttml_size s).
(** [self.duration = d] (mediasegmentfilter.py 193) *)
Definition ms_with_duration (d : Z) (s : mstate) : mstate :=
  mk_mstate (ms_size_change s) (ms_saio s) (ms_tfdt s) (ms_default_dur s) (Some d) (ms_ttml_size s).
(** [self.new_saio_value = v] in process_saio (mediasegmentfilter.py 206-232) *)
Definition ms_with_saio (v : option Z) (s : mstate) : mstate :=
  mk_mstate (ms_size_change s) v (ms_tfdt s) (ms_default_dur s) (ms_duration s) (ms_ttml_size s).
(** [self.size_change = c; self.tfdt_value = v] (mediasegmentfilter.py 302-332) *)
Definition ms_with_tfdt (c v : Z) (s : mstate) : mstate :=
  mk_mstate c (ms_saio s) (Some v) (ms_default_dur s) (ms_duration s) (ms_ttml_size s).

(** [flags & mask] as a truth value (mediasegmentfilter.py 130-232) *)
Definition flag (flags mask : Z) : bool := negb (Z.land flags mask =? 0).

(** mediasegmentfilter.py 107-128 [process_styp]; the loop of lines 114-118. *)
Fixpoint brand_loop (fuel : nat) (data : bytes) (size pos : Z) : list bytes :=
  match fuel with
  | O => []
  | S f =>
      if pos <? size then
        let brand := bslice pos (pos + 4) data in
        if bytes_eqb brand (bstr "lmsg") then brand_loop f data size (pos + 4)
        else brand :: brand_loop f data size (pos + 4)
      else []
  end.
(** mediasegmentfilter.py 107-128 [process_styp] *)
Definition process_styp (p : mparams) (data : bytes) (st : mstate) : result (bytes * mstate) :=
  let* size := str_to_uint32 (btake 4 data) in
  let brands := brand_loop (Z.to_nat size) data size 8 in
  let brands1 := if mp_lmsg p then brands ++ [bstr "lmsg"] else brands in
  let new_size := 8 + 4 * Z.of_nat (List.length brands1) in
  let* sz := uint32_to_str new_size in
  let* scte35box := create_scte35box (mp_scte35 p) (mp_seg_nr p) (mp_seg_duration p) in
  Ok (sz ++ bstr "styp" ++ List.concat brands1 ++ scte35box, st).

(** mediasegmentfilter.py 130-156 [process_tfhd]; [ttml_size] counts as true unless None or 0. *)
Definition truthy (o : option Z) : bool :=
  match o with Some z => negb (z =? 0) | None => false end.
(** mediasegmentfilter.py 130-156 [process_tfhd] *)
Definition process_tfhd (data : bytes) (st : mstate) : result (bytes * mstate) :=
  let* vf := str_to_uint32 (bslice 8 12 data) in
  let tf_flags := Z.land vf 16777215 in
  if flag tf_flags 1 then Err "MediaSegmentFilterError"
  else
    let pos := 16 + (if flag tf_flags 2 then 4 else 0) in
    let* (pos1, st1) :=
      if flag tf_flags 8 then
        let* d := str_to_uint32 (bslice pos (pos + 4) data) in
        Ok (pos + 4, ms_with_default (Some d) st)
      else if truthy (ms_ttml_size st) then Err "MediaSegmentFilterError"
      else Ok (pos, st) in
    match ms_ttml_size st1 with
    | Some sz =>
        if sz =? 0 then Ok (data, st1)
        else if flag tf_flags 16 then
          let* b := uint32_to_str sz in
          Ok (btake pos1 data ++ b ++ bdrop (pos1 + 4) data, st1)
        else Err "MediaSegmentFilterError"
    | None => Ok (data, st1)
    end.

(** mediasegmentfilter.py 158-163 [process_mfhd] *)
Definition process_mfhd (p : mparams) (data : bytes) (st : mstate) : result (bytes * mstate) :=
  match mp_seg_nr p with
  | None => Ok (data, st)
  | Some n => let* b := uint32_to_str n in Ok (btake 12 data ++ b, st)
  end.

(** mediasegmentfilter.py 165-204 [process_trun]; the loop of lines 181-192. *)
Fixpoint trun_loop (n : nat) (data : bytes) (flags : Z) (dflt : option Z) (pos dur : Z) : result Z :=
  match n with
  | O => Ok dur
  | S k =>
      let* (pos1, dur1) :=
        if flag flags 256 then
          let* d := str_to_uint32 (bslice pos (pos + 4) data) in Ok (pos + 4, dur + d)
        else match dflt with
             | Some d => Ok (pos, dur + d)
             | None => Ok (pos, dur)
             end in
      let pos2 := pos1 + (if flag flags 512 then 4 else 0)
                       + (if flag flags 1024 then 4 else 0)
                       + (if flag flags 2048 then 4 else 0) in
      trun_loop k data flags dflt pos2 dur1
  end.
(** mediasegmentfilter.py 165-204 [process_trun] *)
Definition process_trun (data : bytes) (st : mstate) : result (bytes * mstate) :=
  let* vf := str_to_uint32 (bslice 8 12 data) in
  let flags := Z.land vf 16777215 in
  let* sample_count := str_to_uint32 (bslice 12 16 data) in
  let pos := 16 + (if flag flags 1 then 4 else 0) + (if flag flags 4 then 4 else 0) in
  let* duration := trun_loop (Z.to_nat sample_count) data flags (ms_default_dur st) pos 0 in
  let st1 := ms_with_duration duration st in
  let* mid :=
    if flag flags 1 && (0 <? ms_size_change st) then
      let* off := str_to_sint32 (bslice 16 20 data) in
      sint32_to_str (off + ms_size_change st)
    else Ok (bslice 16 20 data) in
  Ok (btake 16 data ++ mid ++ bdrop 20 data, st1).

(** mediasegmentfilter.py 206-232 [process_saio]; both loops, [w] is 4 or 8. *)
Fixpoint saio_loop (n : nat) (w : Z) (rd : bytes -> result Z) (wr : Z -> result bytes)
    (data : bytes) (delta pos : Z) : result (bytes * option Z) :=
  match n with
  | O => Ok ([], None)
  | S k =>
      let* off := rd (bslice pos (pos + w) data) in
      let* b := wr (off + delta) in
      let* (rest, _) := saio_loop k w rd wr data delta (pos + w) in
      Ok (b ++ rest, Some (off + delta))
  end.
(** mediasegmentfilter.py 206-232 [process_saio] *)
Definition process_saio (data : bytes) (st : mstate) : result (bytes * mstate) :=
  let* vf := str_to_uint32 (bslice 8 12 data) in
  let version := Z.shiftr vf 24 in
  let flags := Z.land vf 16777215 in
  let pos := 12 + (if flag flags 1 then 8 else 0) in
  let* entry_count := str_to_uint32 (bslice pos (pos + 4) data) in
  let pos1 := pos + 4 in
  let* (body, first) :=
    if version =? 0
    then saio_loop (Z.to_nat entry_count) 4 str_to_uint32 uint32_to_str data (ms_size_change st) pos1
    else saio_loop (Z.to_nat entry_count) 8 str_to_uint64 uint64_to_str data (ms_size_change st) pos1 in
  let st1 := match first with Some v => ms_with_saio (Some v) st | None => st end in
  Ok (btake pos1 data ++ body, st1).

(** mediasegmentfilter.py 234-237 [process_sidx]: KEEP_SIDX is False (line 40), the rest of the
    method is dead code. *)
Definition process_sidx (data : bytes) (st : mstate) : result (bytes * mstate) := Ok ([], st).

(** mediasegmentfilter.py 302-332 [process_tfdt]; [process_tfdt_to_64bit] (281-300) has no
    caller. *)
Definition process_tfdt (p : mparams) (data : bytes) (st : mstate) : result (bytes * mstate) :=
  let* version := byte_at 8 data in
  let tfdt_offset := match mp_timescale p with Some ts => mp_offset p * ts | None => 0 end in
  if version =? 0 then
    let* base := str_to_uint32 (bslice 12 16 data) in
    let new := base + tfdt_offset in
    if new <? 4294967296 then
      let* b := uint32_to_str new in
      Ok (btake 12 data ++ b, ms_with_tfdt (ms_size_change st) new st)
    else
      let* old_size := str_to_uint32 (btake 4 data) in
      let* sz := uint32_to_str (old_size + 4) in
      let* b := uint64_to_str new in
      Ok (sz ++ bslice 4 8 data ++ [1] ++ bslice 9 12 data ++ b, ms_with_tfdt 4 new st)
  else
    let* base := str_to_uint64 (bslice 12 20 data) in
    let new := base + tfdt_offset in
    let* b := uint64_to_str new in
    Ok (btake 12 data ++ b, ms_with_tfdt (ms_size_change st) new st).

(** Method lookup: the process_xxxx methods with a four-letter suffix. *)
Definition m_method (p : mparams) (t : bytes) : option (bytes -> mstate -> result (bytes * mstate)) :=
  if bytes_eqb t (bstr "styp") then Some (process_styp p)
  else if bytes_eqb t (bstr "tfhd") then Some process_tfhd
  else if bytes_eqb t (bstr "mfhd") then Some (process_mfhd p)
  else if bytes_eqb t (bstr "trun") then Some process_trun
  else if bytes_eqb t (bstr "saio") then Some process_saio
  else if bytes_eqb t (bstr "sidx") then Some process_sidx
  else if bytes_eqb t (bstr "tfdt") then Some (process_tfdt p)
  else None.

(** mediasegmentfilter.py 264-279 [create_sidx]; None values make struct.pack raise. *)
Definition pack_opt (pk : Z -> result bytes) (o : option Z) : result bytes :=
  match o with Some z => pk z | None => Err "struct.error" end.
(** mediasegmentfilter.py 264-279 [create_sidx] *)
Definition create_sidx (p : mparams) (st : mstate) (seg_size : Z) : result bytes :=
  let* a := uint32_to_str 52 in
  let* ts := pack_opt uint32_to_str (mp_timescale p) in
  let* ept := pack_opt uint64_to_str (ms_tfdt st) in
  let* fo := uint64_to_str 0 in
  let* sz := uint32_to_str seg_size in
  let* du := pack_opt uint32_to_str (ms_duration st) in
  Ok (a ++ bstr "sidx" ++ [1; 0; 0; 0] ++ [0; 0; 0; 1] ++ ts ++ ept ++ fo ++ [0; 0; 0; 1]
      ++ sz ++ du ++ [144; 0; 0; 0]).

(** mediasegmentfilter.py 408-412 [create_emsg]; [now] is a number when emsg_last_seg is set. *)
Definition last_event (p : mparams) : emsg :=
  mk_emsg "urn:mpeg:dash:event:2012" "1" 1 2 0 0 (make_timestamp_Q (mp_now p)).
(** mediasegmentfilter.py 408-412 [create_emsg]: the bytes *)
Definition create_emsg (p : mparams) : result bytes := emsg_box (last_event p).

(** mediasegmentfilter.py 80-91 and 95-100: walking output_top_level_boxes; position of the last
    moof and total size of all moof and mdat boxes. *)
Fixpoint walk_boxes (boxes : list (Z * bytes)) (pos moof_start seg_size : Z) : Z * Z :=
  match boxes with
  | [] => (moof_start, seg_size)
  | (size, box) :: r =>
      if bytes_eqb box (bstr "moof") then walk_boxes r (pos + size) pos (seg_size + size)
      else if bytes_eqb box (bstr "mdat") then walk_boxes r (pos + size) moof_start (seg_size + size)
      else walk_boxes r (pos + size) moof_start seg_size
  end.

(** mediasegmentfilter.py 79-103 [finalize] *)
Definition m_finalize (p : mparams) (output : bytes) (boxes : list (Z * bytes)) (st : mstate) : result bytes :=
  let '(moof_start, seg_size) := walk_boxes boxes 0 0 0 in
  let* out1 :=
    if mp_insert_sidx p then
      let* sidx := create_sidx p st seg_size in
      Ok (btake moof_start output ++ sidx ++ bdrop moof_start output)
    else Ok output in
  if mp_emsg_last p then
    let* e := create_emsg p in
    Ok (btake moof_start out1 ++ e ++ bdrop moof_start out1)
  else Ok out1.

(** mediasegmentfilter.py 47-58: the boxes the filter looks at and its methods *)
Definition m_class (p : mparams) : fclass mstate := {|
  fc_top := [bstr "styp"; bstr "sidx"; bstr "moof"; bstr "mdat"];
  fc_composite := [bstr "moof"; bstr "traf"];
  fc_note := fun _ _ st => st;
  fc_method := m_method p;
  fc_finalize := m_finalize p
|}.

(** mediasegmentfilter.py 386-406 [find_and_process_mdat], [update_ttml_mdat]: new data and
    ttml_size. *)
Definition update_ttml_mdat (p : mparams) (data : bytes) : result (bytes * Z) :=
  let* nr := match mp_seg_nr p with Some n => Ok n | None => Err "TypeError" end in
  let ttml_out := adjust_ttml_content (bdrop 8 data) (mp_offset p) nr in
  let* sz := uint32_to_str (blen ttml_out + 8) in
  Ok (sz ++ bstr "mdat" ++ ttml_out, blen ttml_out).
(** mediasegmentfilter.py 386-398 [find_and_process_mdat]: the loop over the top-level boxes *)
Fixpoint mdat_loop (p : mparams) (fuel : nat) (data : bytes) (pos : Z) (output : bytes) (sz : option Z)
    : result (bytes * option Z) :=
  match fuel with
  | O => Err "diverges"
  | S f =>
      if pos <? blen data then
        let* size := str_to_uint32 (bslice pos (pos + 4) data) in
        let boxtype := bslice (pos + 4) (pos + 8) data in
        let box := bslice pos (pos + size) data in
        if bytes_eqb boxtype (bstr "mdat") then
          let* (o, n) := update_ttml_mdat p box in
          mdat_loop p f data (pos + size) (output ++ o) (Some n)
        else mdat_loop p f data (pos + size) (output ++ box) sz
      else Ok (output, sz)
  end.

(** Constructor and [filter()]: the filtered bytes and the final attributes. *)
Definition media_filter (p : mparams) (file : bytes) : result (bytes * mstate) :=
  let* (data, ttml) :=
    if mp_is_ttml p then mdat_loop p (enough file) file 0 [] None else Ok (file, None) in
  mp4_filter (m_class p) (enough data) data (m_init p ttml).
