(** dashlib/initsegmentfilter.py: reading and rewriting init segments. *)
From Verif Require Import Base BytesModel Mp4Model.
Open Scope Z_scope.

(** initsegmentfilter.py 39-46: the attributes of InitFilter that its methods
    set; the trex values are unset attributes until process_trex runs. *)
Record istate := mk_istate {
  is_timescale : Z;
  is_track_id : option Z;
  is_handler : option bytes;
  is_trex : option (Z * Z * Z * Z)
}.
(** initsegmentfilter.py 39-46: the attributes at first *)
Definition istate0 : istate := mk_istate (-1) None None None.

(** initsegmentfilter.py 48-51 [process_hdlr] *)
Definition i_hdlr (data : bytes) (st : istate) : result (bytes * istate) :=
  Ok (data, mk_istate (is_timescale st) (is_track_id st) (Some (bslice 16 20 data)) (is_trex st)).
(** initsegmentfilter.py 53-61 [process_tkhd] *)
Definition i_tkhd (data : bytes) (st : istate) : result (bytes * istate) :=
  match is_track_id st with
  | Some _ => Err "AssertionError"
  | None =>
      let* version := byte_at 8 data in
      if version =? 0 then
        let* v := str_to_uint32 (bslice 20 24 data) in
        Ok (data, mk_istate (is_timescale st) (Some v) (is_handler st) (is_trex st))
      else if version =? 1 then
        let* v := str_to_uint32 (bslice 28 32 data) in
        Ok (data, mk_istate (is_timescale st) (Some v) (is_handler st) (is_trex st))
      else Ok (data, st)
  end.
(** initsegmentfilter.py 63-66 [process_mdhd]; the version is not looked at. *)
Definition i_mdhd (data : bytes) (st : istate) : result (bytes * istate) :=
  let* v := str_to_uint32 (bslice 20 24 data) in
  Ok (data, mk_istate v (is_track_id st) (is_handler st) (is_trex st)).
(** initsegmentfilter.py 68-74 [process_trex] *)
Definition i_trex (data : bytes) (st : istate) : result (bytes * istate) :=
  let* a := str_to_uint32 (bslice 16 20 data) in
  let* b := str_to_uint32 (bslice 20 24 data) in
  let* c := str_to_uint32 (bslice 24 28 data) in
  let* d := str_to_uint32 (bslice 28 32 data) in
  Ok (data, mk_istate (is_timescale st) (is_track_id st) (is_handler st) (Some (a, b, c, d))).

(** initsegmentfilter.py 42 and 99: composite_boxes_to_parse *)
Definition init_containers : list bytes := [bstr "moov"; bstr "trak"; bstr "mdia"; bstr "mvex"].
(** mp4filter.py 121-124: the process_xxxx methods of InitFilter *)
Definition i_method (t : bytes) : option (bytes -> istate -> result (bytes * istate)) :=
  if bytes_eqb t (bstr "hdlr") then Some i_hdlr
  else if bytes_eqb t (bstr "tkhd") then Some i_tkhd
  else if bytes_eqb t (bstr "mdhd") then Some i_mdhd
  else if bytes_eqb t (bstr "trex") then Some i_trex
  else None.
(** initsegmentfilter.py 36-46, class InitFilter; mp4filter.py 129-131 [finalize] does nothing. *)
Definition init_class : fclass istate := {|
  fc_top := [bstr "moov"];
  fc_composite := init_containers;
  fc_note := fun _ _ s => s;
  fc_method := i_method;
  fc_finalize := fun out _ _ => Ok out
|}.
(** mp4filter.py 71-94 for InitFilter *)
Definition init_filter (data : bytes) : result (bytes * istate) :=
  mp4_filter init_class (enough data) data istate0.

(** initsegmentfilter.py 92-144, class InitLiveFilter; the state is movie_timescale. *)
Definition zero_at (a n : Z) (data : bytes) : bytes :=
  btake a data ++ repeat 0 (Z.to_nat n) ++ bdrop (a + n) data.
(** initsegmentfilter.py 102-116 [process_mvhd] *)
Definition l_mvhd (data : bytes) (st : Z) : result (bytes * Z) :=
  let* version := byte_at 8 data in
  if version =? 1 then
    let* ts := str_to_uint32 (bslice 28 32 data) in Ok (zero_at 32 8 data, ts)
  else
    let* ts := str_to_uint32 (bslice 20 24 data) in Ok (zero_at 24 4 data, ts).
(** initsegmentfilter.py 118-130 [process_tkhd] *)
Definition l_tkhd (data : bytes) (st : Z) : result (bytes * Z) :=
  let* version := byte_at 8 data in
  if version =? 1 then Ok (zero_at 36 8 data, st) else Ok (zero_at 28 4 data, st).
(** initsegmentfilter.py 132-144 [process_mdhd] *)
Definition l_mdhd (data : bytes) (st : Z) : result (bytes * Z) :=
  let* version := byte_at 8 data in
  if version =? 1 then Ok (zero_at 32 8 data, st) else Ok (zero_at 24 4 data, st).
(** mp4filter.py 121-124: the process_xxxx methods of InitLiveFilter *)
Definition l_method (t : bytes) : option (bytes -> Z -> result (bytes * Z)) :=
  if bytes_eqb t (bstr "mvhd") then Some l_mvhd
  else if bytes_eqb t (bstr "tkhd") then Some l_tkhd
  else if bytes_eqb t (bstr "mdhd") then Some l_mdhd
  else None.
(** initsegmentfilter.py 91-100, class InitLiveFilter *)
Definition live_class : fclass Z := {|
  fc_top := [bstr "moov"];
  fc_composite := init_containers;
  fc_note := fun _ _ s => s;
  fc_method := l_method;
  fc_finalize := fun out _ _ => Ok out
|}.
(** dash_proxy.py 195-198: the unmultiplexed branch of process_init_segment on
    the content of the init file. *)
Definition init_live (data : bytes) : result bytes :=
  let* (out, _) := mp4_filter live_class (enough data) data (-1) in Ok out.
