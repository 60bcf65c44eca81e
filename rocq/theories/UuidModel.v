(** dashlib/mp4.py: boxes with extended types (uuid), and the classes for the
    content of two of them, times of fragments in Smooth Streaming. *)
From Verif Require Import Base BytesModel ChunkModel ReadersModel BootModel.
Open Scope Z_scope.

(** mp4.py 285-291 full_box for a uuid box, 2169-2171 uuid_box: extended_type,
    version and flags *)
Definition uuid_at (data : bytes) (o : Z) : result (bytes * Z * Z) :=
  let extended_type := bslice (o + 8) (o + 24) data in
  let* v := byte_at 0 (bslice (o + 24) (o + 25) data) in
  let* f := str_to_sint32 (0 :: bslice (o + 25) (o + 28) data) in
  Ok (extended_type, v, f).
(** mp4.py 2118-2119 and 2136-2137: a time and a duration *)
Definition time_pair (version : Z) (i : bytes) : result ((Z * Z) * bytes) :=
  let* (t, i) := send (if version =? 0 then 4 else 8) i in
  let* (d, i) := send (if version =? 0 then 4 else 8) i in
  Ok ((t, d), i).
(** mp4.py 2109-2119 tfxd_box: time and duration *)
Definition tfxd_of (data : bytes) (version : Z) : result (Z * Z) :=
  let* (p, _) := time_pair version data in Ok p.
(** mp4.py 2122-2137 tfrf_box: times with durations *)
Definition tfrf_of (data : bytes) (version : Z) : result (list (Z * Z)) :=
  let* (n, i) := send 1 data in
  let* (l, _) := items (Z.to_nat n) (time_pair version) i in Ok l.
