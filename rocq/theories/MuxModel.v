(** dashlib/segmentmuxer.py: multiplexing of two init or media segments. *)
From Verif Require Import Base BytesModel Mp4Model.
Open Scope Z_scope.

(** segmentmuxer.py 46-49: the attributes of InitSegmentStructure, None at
    first. *)
Record istruct := mk_istruct {
  it_ftyp : option bytes;
  it_mvhd : option bytes;
  it_trex : option bytes;
  it_trak : option bytes
}.
(** segmentmuxer.py 46-49: at first *)
Definition istruct0 : istruct := mk_istruct None None None None.
(** segmentmuxer.py 51-69: each method keeps the box it is given. *)
Definition s_method (t : bytes) : option (bytes -> istruct -> result (bytes * istruct)) :=
  if bytes_eqb t (bstr "ftyp") then Some (fun d s => Ok (d, mk_istruct (Some d) (it_mvhd s) (it_trex s) (it_trak s)))
  else if bytes_eqb t (bstr "mvhd") then Some (fun d s => Ok (d, mk_istruct (it_ftyp s) (Some d) (it_trex s) (it_trak s)))
  else if bytes_eqb t (bstr "trex") then Some (fun d s => Ok (d, mk_istruct (it_ftyp s) (it_mvhd s) (Some d) (it_trak s)))
  else if bytes_eqb t (bstr "trak") then Some (fun d s => Ok (d, mk_istruct (it_ftyp s) (it_mvhd s) (it_trex s) (Some d)))
  else None.
(** segmentmuxer.py 37-49, class InitSegmentStructure *)
Definition istruct_class : fclass istruct := {|
  fc_top := [bstr "ftyp"; bstr "moov"];
  fc_composite := [bstr "moov"; bstr "mvex"];
  fc_note := fun _ _ s => s;
  fc_method := s_method;
  fc_finalize := fun out _ _ => Ok out
|}.
(** mp4filter.py 71-94 for InitSegmentStructure *)
Definition read_istruct (data : bytes) : result istruct :=
  let* (_, s) := mp4_filter istruct_class (enough data) data istruct0 in Ok s.

(** [len(x)] and concatenation of an attribute that may be None *)
Definition some_box (x : option bytes) : result bytes :=
  match x with Some b => Ok b | None => Err "TypeError" end.

(** segmentmuxer.py 102-120 [construct_muxed]; a None is met by len first, and by join
    (for ftyp, which is not measured) last. *)
Definition construct_muxed (a b : istruct) : result bytes :=
  let* trex1 := some_box (it_trex a) in
  let* trex2 := some_box (it_trex b) in
  let mvex_size := 8 + blen trex1 + blen trex2 in
  let* mvhd := some_box (it_mvhd a) in
  let* trak1 := some_box (it_trak a) in
  let* trak2 := some_box (it_trak b) in
  let moov_size := 8 + blen mvhd + mvex_size + blen trak1 + blen trak2 in
  let* moov_sz := uint32_to_str moov_size in
  let* mvex_sz := uint32_to_str mvex_size in
  let* ftyp := some_box (it_ftyp a) in
  Ok (ftyp ++ moov_sz ++ bstr "moov" ++ mvhd ++ mvex_sz ++ bstr "mvex" ++ trex1 ++ trex2 ++ trak1 ++ trak2).
(** segmentmuxer.py 92-120, MultiplexInits(data1, data2).construct_muxed() *)
Definition mux_inits (data1 data2 : bytes) : result bytes :=
  let* a := read_istruct data1 in
  let* b := read_istruct data2 in
  construct_muxed a b.

(** segmentmuxer.py 130-137: the attributes of MediaSegmentStructure. *)
Record mstruct := mk_mstruct {
  mt_offset : option Z;
  mt_offset_in_traf : option Z;
  mt_traf_start : option Z;
  mt_styp : option bytes;
  mt_mfhd : option bytes;
  mt_traf : option bytes;
  mt_moof : option bytes;
  mt_mdat : option bytes
}.
(** segmentmuxer.py 130-137: at first *)
Definition mstruct0 : mstruct := mk_mstruct None None None None None None None None.

(** segmentmuxer.py 139-145 [parse_trun]; the subtraction of a None traf_start raises
    after trun_data_offset is set, which nothing can see. *)
Definition parse_trun (data : bytes) (pos : Z) (s : mstruct) : result mstruct :=
  let* w := str_to_uint32 (bslice 8 12 data) in
  let flags := Z.land w 16777215 in
  if Z.land flags 1 =? 0 then Ok s
  else
    let* off := str_to_uint32 (bslice 16 20 data) in
    match mt_traf_start s with
    | None => Err "TypeError"
    | Some t => Ok (mk_mstruct (Some off) (Some (pos + 16 - t)) (mt_traf_start s) (mt_styp s) (mt_mfhd s)
                      (mt_traf s) (mt_moof s) (mt_mdat s))
    end.
(** segmentmuxer.py 149-161 *)
Definition m_note (boxtype data : bytes) (file_pos : Z) (s : mstruct) : result mstruct :=
  if bytes_eqb boxtype (bstr "styp") then
    Ok (mk_mstruct (mt_offset s) (mt_offset_in_traf s) (mt_traf_start s) (Some data) (mt_mfhd s) (mt_traf s) (mt_moof s) (mt_mdat s))
  else if bytes_eqb boxtype (bstr "moof") then
    Ok (mk_mstruct (mt_offset s) (mt_offset_in_traf s) (mt_traf_start s) (mt_styp s) (mt_mfhd s) (mt_traf s) (Some data) (mt_mdat s))
  else if bytes_eqb boxtype (bstr "mdat") then
    Ok (mk_mstruct (mt_offset s) (mt_offset_in_traf s) (mt_traf_start s) (mt_styp s) (mt_mfhd s) (mt_traf s) (mt_moof s) (Some data))
  else if bytes_eqb boxtype (bstr "mfhd") then
    Ok (mk_mstruct (mt_offset s) (mt_offset_in_traf s) (mt_traf_start s) (mt_styp s) (Some data) (mt_traf s) (mt_moof s) (mt_mdat s))
  else if bytes_eqb boxtype (bstr "traf") then
    Ok (mk_mstruct (mt_offset s) (mt_offset_in_traf s) (Some file_pos) (mt_styp s) (mt_mfhd s) (Some data) (mt_moof s) (mt_mdat s))
  else if bytes_eqb boxtype (bstr "trun") then parse_trun data file_pos s
  else Ok s.

(** segmentmuxer.py 162-165 *)
Definition path_ext (path boxtype : bytes) : bytes :=
  match path with [] => boxtype | _ => path ++ bstr "." ++ boxtype end.
(** segmentmuxer.py 167 *)
Definition deeper (path : bytes) : bool := bytes_in path [bstr "moof"; bstr "moof.traf"].

(** segmentmuxer.py 170-173, the loop over the children; fuel as in Mp4Model.v *)
Fixpoint m_loop (rec : bytes -> bytes -> Z -> bytes -> mstruct -> result (bytes * mstruct))
    (fuel : nat) (data : bytes) (file_pos pos : Z) (output path : bytes) (s : mstruct) : result (bytes * mstruct) :=
  match fuel with
  | O => Err "diverges"
  | S f =>
      if pos <? blen data then
        let* (size, boxtype) := check_box (bslice pos (pos + 8) data) in
        let* (o1, s1) := rec boxtype (bslice pos (pos + size) data) (file_pos + blen output) path s in
        m_loop rec f data file_pos (pos + size) (output ++ o1) path s1
      else Ok (output, s)
  end.
(** segmentmuxer.py 147-176 [filter_box] *)
Fixpoint m_filter_box (fuel : nat) (boxtype data : bytes) (file_pos : Z) (path : bytes) (s : mstruct)
    : result (bytes * mstruct) :=
  match fuel with
  | O => Err "diverges"
  | S f =>
      let* s1 := m_note boxtype data file_pos s in
      let path1 := path_ext path boxtype in
      if deeper path1 then m_loop (m_filter_box f) f data file_pos 8 (btake 8 data) path1 s1
      else Ok (data, s1)
  end.
(** mp4filter.py 71-94 [filter] with top_level_boxes_to_parse of line 129; the
    list of top level boxes is not used. *)
Fixpoint m_top (fuel : nat) (data : bytes) (pos : Z) (output : bytes) (s : mstruct) : result (bytes * mstruct) :=
  match fuel with
  | O => Err "diverges"
  | S f =>
      if pos <? blen data then
        let* (size, boxtype) := check_box (bslice pos (pos + 8) data) in
        let boxdata := bslice pos (pos + size) data in
        let* (o1, s1) :=
          if bytes_in boxtype [bstr "styp"; bstr "moof"; bstr "mdat"]
          then m_filter_box f boxtype boxdata (blen output) [] s
          else Ok (boxdata, s) in
        m_top f data (pos + size) (output ++ o1) s1
      else Ok (output, s)
  end.
(** mp4filter.py 71-94 for MediaSegmentStructure *)
Definition read_mstruct (data : bytes) : result mstruct :=
  let* (_, s) := m_top (enough data) data 0 [] mstruct0 in Ok s.

(** segmentmuxer.py 203-210 [get_traf_with_mod_offset]; [traf] is mstruct.traf, already
    known not to be None (lines 212, 213). *)
Definition traf_mod (s : mstruct) (traf : bytes) (delta : Z) : result bytes :=
  match mt_offset s, mt_offset_in_traf s with
  | Some off, Some o =>
      let* w := uint32_to_str (off + delta) in
      Ok (btake o traf ++ w ++ bdrop (o + 4) traf)
  | _, _ => Ok traf
  end.
(** segmentmuxer.py 200-232 [mux_on_sample_level] *)
Definition mux_samples (a b : mstruct) : result bytes :=
  let* t2 := some_box (mt_traf b) in
  let* t1 := some_box (mt_traf a) in
  let* d1 := some_box (mt_mdat a) in
  let delta1 := blen t2 in
  let delta2 := blen t1 + blen d1 - 8 in
  let* traf1 := traf_mod a t1 delta1 in
  let* traf2 := traf_mod b t2 delta2 in
  let* mfhd := some_box (mt_mfhd a) in
  let moof_size := 8 + blen mfhd + blen t1 + blen t2 in
  let* d2 := some_box (mt_mdat b) in
  let mdat_size := blen d1 + blen d2 - 8 in
  let* moof_sz := uint32_to_str moof_size in
  let* mdat_sz := uint32_to_str mdat_size in
  let* styp := some_box (mt_styp a) in
  Ok (styp ++ moof_sz ++ bstr "moof" ++ mfhd ++ traf1 ++ traf2 ++ mdat_sz ++ bstr "mdat" ++ bdrop 8 d1 ++ bdrop 8 d2).
(** segmentmuxer.py 184-188 and 200-232; dash_proxy.py 303-304 *)
Definition mux_media (data1 data2 : bytes) : result bytes :=
  let* a := read_mstruct data1 in
  let* b := read_mstruct data2 in
  mux_samples a b.
(** segmentmuxer.py 190-198 [mux_on_fragment_level], not called by the server *)
Definition mux_fragments (data1 data2 : bytes) : result bytes :=
  let* a := read_mstruct data1 in
  let* b := read_mstruct data2 in
  let* s := some_box (mt_styp a) in
  let* m1 := some_box (mt_moof a) in
  let* d1 := some_box (mt_mdat a) in
  let* m2 := some_box (mt_moof b) in
  let* d2 := some_box (mt_mdat b) in
  Ok (s ++ m1 ++ d1 ++ m2 ++ d2).
