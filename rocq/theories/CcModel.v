(** cc_inserter/cc_inserter.py: inserting CEA-608 captions in video segments. *)
From Verif Require Import Base BytesModel Mp4Model ChunkModel.
Open Scope Z_scope.

(** cc_inserter.py 490-511: a caption of SCCParser.result: start_time and the values
    int(i, 16) of the words cea608.  Times are exact rationals here and floats
    there. *)
Definition caption : Type := (Q * list Z)%type.

(** Slices and indexes with any integer bounds. *)
Definition clip (n i : Z) : Z := if i <? 0 then Z.max 0 (n + i) else Z.min i n.
(** [d[a:z]] for any integers (cc_inserter.py 199, 205, 212, 218, 222, 225) *)
Definition py_slice (a z : Z) (d : bytes) : bytes := bslice (clip (blen d) a) (clip (blen d) z) d.
(** [d[i]] for any integer (cc_inserter.py 213) *)
Definition py_at (i : Z) (d : bytes) : result Z :=
  if i <? 0 then (if blen d + i <? 0 then Err "IndexError" else byte_at (blen d + i) d) else byte_at i d.

(** [bytes(list)] *)
Definition py_bytes (l : list Z) : result bytes :=
  if forallb (fun x => (0 <=? x) && (x <=? 255)) l then Ok l else Err "ValueError".

(** cc_inserter.py 73-85: the bytes of one word *)
Definition cc_word (field w : Z) : result (list Z) :=
  let cc_byte1 := Z.shiftr (Z.land w 65280) 8 in
  let cc_byte2 := Z.land w 255 in
  if field =? 1 then Ok [252; cc_byte1; cc_byte2]
  else if field =? 2 then Ok [253; cc_byte1; cc_byte2]
  else Err "ValueError".
(** cc_inserter.py 73-85: the loop over the words of a caption *)
Fixpoint cc_words (field : Z) (l : list Z) : result (list Z) :=
  match l with
  | [] => Ok []
  | w :: r => let* x := cc_word field w in let* y := cc_words field r in Ok (x ++ y)
  end.
(** cc_inserter.py 51-93 [generate_data] *)
Definition generate_one (field : Z) (cea608 : list Z) : result bytes :=
  let n := Z.of_nat (List.length cea608) in
  let payload_size := (1 + 2 + 4 + 1) + (1 + 1 + n * 3 + 1) in
  let* ws := cc_words field cea608 in
  let nal_unit := [102; 4; payload_size; 181; 0; 49; 71; 65; 57; 52; 3; 192 + n; 255] ++ ws ++ [255; 128] in
  let* len := uint32_to_str (blen nal_unit) in
  let* nal := py_bytes nal_unit in
  Ok (len ++ nal).
(** cc_inserter.py 51-93: the loop over the captions *)
Fixpoint generate_data (field : Z) (scc_data : list caption) : result bytes :=
  match scc_data with
  | [] => Ok []
  | (_, ws) :: r => let* x := generate_one field ws in let* y := generate_data field r in Ok (x ++ y)
  end.

(** cc_inserter.py 228-234 [get_scc_data]; start_time <= t < end_time.  The same test is
    in 389-395. *)
Definition in_window (start_time end_time : Q) (c : caption) : bool :=
  Qle_bool start_time (fst c) && Qltb (fst c) end_time.
(** cc_inserter.py 228-234 and 389-395 [get_scc_data] *)
Definition get_scc_data (scc_data : list caption) (start_time end_time : Q) : list caption :=
  filter (in_window start_time end_time) scc_data.
(** x / float(time_scale) *)
Definition seconds (x time_scale : Z) : result Q :=
  if time_scale =? 0 then Err "ZeroDivisionError" else Ok (inject_Z x / inject_Z time_scale)%Q.

(** cc_inserter.py 98-107: the attributes; scc_map has pos, size and scc_nalu.
    moof_start and mdat_start are unset attributes until such a box is met
    (mp4filter.py 99-102). *)
Record cstate := mk_cstate {
  cs_offset : Z;
  cs_map : list (Z * Z * bytes);
  cs_moof : option Z;
  cs_mdat : option Z
}.
(** cc_inserter.py 98-107: the attributes at first *)
Definition cstate0 : cstate := mk_cstate 0 [] None None.
(** mp4filter.py 99-102: where moof and mdat start *)
Definition c_note (t : bytes) (file_pos : Z) (st : cstate) : cstate :=
  if bytes_eqb t (bstr "moof") then mk_cstate (cs_offset st) (cs_map st) (Some file_pos) (cs_mdat st)
  else if bytes_eqb t (bstr "mdat") then mk_cstate (cs_offset st) (cs_map st) (cs_moof st) (Some file_pos)
  else st.

(** cc_inserter.py 135-186: the loop over the samples.  [pd], [ps], [pf], [pc]: which
    fields there are; the composition time does not enter the times compared
    (161-162). *)
Fixpoint cc_samples (n : nat) (pd ps pf pc : bool) (caps : list caption) (time_scale field : Z)
    (data : bytes) (pos tfdt orig_sample_pos : Z) : result (bytes * list (Z * Z * bytes)) :=
  match n with
  | O => Ok ([], [])
  | S k =>
      let* (duration, pos) := if pd then let* v := u32_at data pos in Ok (v, pos + 4) else Ok (0, pos) in
      let* (size, pos) := if ps then let* v := u32_at data pos in Ok (v, pos + 4) else Ok (0, pos) in
      let* (flags, pos) := if pf then let* v := u32_at data pos in Ok (v, pos + 4) else Ok (0, pos) in
      let* (comp_time, pos) := if pc then let* v := u32_at data pos in Ok (v, pos + 4) else Ok (0, pos) in
      let* start_time := seconds tfdt time_scale in
      let* end_time := seconds (tfdt + duration) time_scale in
      let scc_samples := get_scc_data caps start_time end_time in
      let* (output_size, entry) :=
        match scc_samples with
        | [] => Ok (size, [])
        | _ => let* nalu := generate_data field scc_samples in
               Ok (size + blen nalu, [(orig_sample_pos, size, nalu)])
        end in
      let* o1 := if pd then uint32_to_str duration else Ok [] in
      let* o2 := if ps then uint32_to_str output_size else Ok [] in
      let* o3 := if pf then uint32_to_str flags else Ok [] in
      let* o4 := if pc then uint32_to_str comp_time else Ok [] in
      let* (rest, map) := cc_samples k pd ps pf pc caps time_scale field data pos (tfdt + duration) (orig_sample_pos + size) in
      Ok (o1 ++ o2 ++ o3 ++ o4 ++ rest, entry ++ map)
  end.
(** cc_inserter.py 109-187 [process_trun]; with flag 0x4 the first sample flags are
    skipped and not written (124-125). *)
Definition c_trun (caps : list caption) (time_scale tfdt field : Z) (data : bytes) (st : cstate) : result (bytes * cstate) :=
  let* word := u32_at data 8 in
  let flags := Z.land word 16777215 in
  let* sample_count := u32_at data 12 in
  let* (off, out1, pos) :=
    if Z.testbit flags 0 then
      let* v := u32_at data 16 in let* b := uint32_to_str v in Ok (v, b, 20)
    else Ok (cs_offset st, [], 16) in
  let pos := if Z.testbit flags 2 then pos + 4 else pos in
  let* (rows, map) :=
    cc_samples (Z.to_nat sample_count) (Z.testbit flags 8) (Z.testbit flags 9) (Z.testbit flags 10) (Z.testbit flags 11)
      caps time_scale field data pos tfdt 0 in
  Ok (btake 16 data ++ out1 ++ rows, mk_cstate off (cs_map st ++ map) (cs_moof st) (cs_mdat st)).

(** cc_inserter.py 211-216: skip the NAL units that are not video.  Every turn moves on
    by 4 bytes at least. *)
Fixpoint nal_loop (fuel : nat) (data : bytes) (pos end_ : Z) : result Z :=
  match fuel with
  | O => Err "diverges"
  | S f =>
      if pos <? end_ then
        let* nalu_size := str_to_uint32 (py_slice pos (pos + 4) data) in
        let* b := py_at (pos + 4) data in
        if Z.land b 31 <? 6 then Ok pos else nal_loop f data (pos + (nalu_size + 4)) end_
      else Ok pos
  end.
(** cc_inserter.py 202-225 *)
Fixpoint mdat_loop (map : list (Z * Z * bytes)) (data : bytes) (data_offset offset : Z) (output : bytes) : result bytes :=
  match map with
  | [] => Ok (if offset <? blen data then output ++ py_slice offset (blen data) data else output)
  | (p, size, nalu) :: rest =>
      let scc_pos := p + data_offset in
      let '(output, offset) :=
        if offset <? scc_pos then (output ++ py_slice offset scc_pos data, scc_pos) else (output, offset) in
      let end_ := offset + size in
      let* pos := nal_loop (S (S (2 * List.length data))) data offset end_ in
      let '(output, offset) :=
        if offset <? pos then (output ++ py_slice offset pos data, pos) else (output, offset) in
      mdat_loop rest data data_offset end_ (output ++ nalu ++ py_slice offset end_ data)
  end.
(** cc_inserter.py 189-226 [process_mdat] *)
Definition c_mdat (data : bytes) (st : cstate) : result (bytes * cstate) :=
  match cs_mdat st, cs_moof st with
  | Some mdat_start, Some moof_start =>
      let offset := cs_offset st - (mdat_start - moof_start) in
      let new_mdat_size := fold_left (fun a e => a + blen (snd e)) (cs_map st) (blen data) in
      let* sz := uint32_to_str new_mdat_size in
      let* out := mdat_loop (cs_map st) data offset offset (sz ++ py_slice 4 offset data) in
      Ok (out, st)
  | _, _ => Err "AttributeError"
  end.

(** cc_inserter.py 96-107, class CCInsertFilter *)
Definition c_method (caps : list caption) (time_scale tfdt field : Z) (t : bytes) : option (bytes -> cstate -> result (bytes * cstate)) :=
  if bytes_eqb t (bstr "trun") then Some (c_trun caps time_scale tfdt field)
  else if bytes_eqb t (bstr "mdat") then Some c_mdat
  else None.
(** cc_inserter.py 96-107, class CCInsertFilter: the boxes it looks at *)
Definition cc_class (caps : list caption) (time_scale tfdt field : Z) : fclass cstate := {|
  fc_top := [bstr "styp"; bstr "sidx"; bstr "moof"; bstr "mdat"];
  fc_composite := [bstr "moof"; bstr "traf"];
  fc_note := c_note;
  fc_method := c_method caps time_scale tfdt field;
  fc_finalize := fun out _ _ => Ok out
|}.
(** cc_inserter.py 458-461: the filter applied to one segment *)
Definition cc_filter (data : bytes) (caps : list caption) (time_scale tfdt field : Z) : result bytes :=
  let* (out, _) := mp4_filter (cc_class caps time_scale tfdt field) (enough data) data cstate0 in Ok out.

(** cc_inserter.py 448-465 for one segment: tfdt and duration are those of
    MediaSegmentFilter; None when no file is written. *)
Definition insert_segment (data : bytes) (scc_data : list caption) (track_timescale tfdt duration field : Z) : result (option bytes) :=
  let* start_time := seconds tfdt track_timescale in
  let* d := seconds duration track_timescale in
  let caps := get_scc_data scc_data start_time (start_time + d)%Q in
  match caps with
  | [] => Ok None
  | _ => let* out := cc_filter data caps track_timescale tfdt field in Ok (Some out)
  end.

(** cc_inserter.py 283-286 [chunks] for a positive [num]. *)
Fixpoint chunks_loop {A} (fuel : nat) (num : nat) (l : list A) : list (list A) :=
  match fuel, l with
  | O, _ => []
  | _, [] => []
  | S f, _ => firstn num l :: chunks_loop f num (skipn num l)
  end.
(** cc_inserter.py 283-286 [chunks] *)
Definition chunks {A} (num : nat) (l : list A) : list (list A) := chunks_loop (List.length l) num l.
(** cc_inserter.py 508-511: the captions of a line with this start time and words *)
Definition line_captions (start_time : Q) (words : list Z) : list caption :=
  map (fun cun => (start_time, cun)) (chunks 31 words).
(** cc_inserter.py 248-254 and 265-280 [convert_time] for the form hh:mm:ss:ff with
    numbers that int() reads; exact where the code divides floats. *)
Definition frame_ms (frame_nr : Z) : Z := Z.min (Z.quot (frame_nr * 100000) 2997) 999.
(** cc_inserter.py 278-280 with 265-275: seconds of a time stamp *)
Definition convert_time (hours minutes secs frame_nr : Z) : Q :=
  (inject_Z (hours * 3600000 + minutes * 60000 + secs * 1000 + frame_ms frame_nr) / 1000)%Q.
