(** dashlib/mp4.py: reading an emsg box. *)
From Verif Require Import Base BytesModel EmsgModel.
Open Scope Z_scope.

(** mp4.py 84-91 [parse_generator]: the data not yet consumed; [send] of a
    format when nothing is left raises StopIteration, with too little left
    struct.error. *)
Definition send_u8 (d : bytes) : result (Z * bytes) :=
  match d with [] => Err "StopIteration" | x :: r => Ok (x, r) end.
(** mp4.py 84-91: [send('I')] *)
Definition send_u32 (d : bytes) : result (Z * bytes) :=
  match d with
  | [] => Err "StopIteration"
  | _ => let* v := str_to_uint32 (btake 4 d) in Ok (v, bdrop 4 d)
  end.
(** mp4.py 84-91: [send('Q')] *)
Definition send_u64 (d : bytes) : result (Z * bytes) :=
  match d with
  | [] => Err "StopIteration"
  | _ => let* v := str_to_uint64 (btake 8 d) in Ok (v, bdrop 8 d)
  end.

(** mp4.py 2019-2025 [read_string]; chr() of each byte. *)
Fixpoint read_string (d : bytes) : result (string * bytes) :=
  match d with
  | [] => Err "StopIteration"
  | x :: r => if x =? 0 then Ok (EmptyString, r)
              else let* (s, r2) := read_string r in
                   Ok (String (ascii_of_nat (Z.to_nat x)) s, r2)
  end.

(** What emsg_box stores: presentation time (version 1) or its delta (version 0)
    in [er_time], message_data as list of integers. *)
Record emsg_read := mk_emsg_read {
  er_version : Z; er_scheme : string; er_value : string; er_timescale : Z; er_time : Z;
  er_duration : Z; er_id : Z; er_data : bytes
}.

(** mp4.py 2219-2252 [emsg_box.__init__] on the bytes of the box (offset 0, size
    as declared in the first four bytes); 293-296 the version byte. *)
Definition read_emsg (b : bytes) : result emsg_read :=
  let* size := str_to_uint32 (btake 4 b) in
  let* version := byte_at 8 b in
  let i := bslice 12 size b in
  if version =? 0 then
    let* (scheme, i1) := read_string i in
    let* (value, i2) := read_string i1 in
    let* (ts, i3) := send_u32 i2 in
    let* (delta, i4) := send_u32 i3 in
    let* (dur, i5) := send_u32 i4 in
    let* (id, i6) := send_u32 i5 in
    Ok (mk_emsg_read 0 scheme value ts delta dur id i6)
  else if version =? 1 then
    let* (ts, i1) := send_u32 i in
    let* (time, i2) := send_u64 i1 in
    let* (dur, i3) := send_u32 i2 in
    let* (id, i4) := send_u32 i3 in
    let* (scheme, i5) := read_string i4 in
    let* (value, i6) := read_string i5 in
    Ok (mk_emsg_read 1 scheme value ts time dur id i6)
  else Err "AssertionError".
