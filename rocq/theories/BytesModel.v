(** Python byte strings and dashlib/structops.py. *)
From Verif Require Import Base.
Open Scope Z_scope.

(** A byte string is a list of integers; every byte string the code can build
    or read has all of them in 0..255 (see [bytes_ok] in BytesProofs.v). *)
Definition bytes := list Z.

(** [len(b)] *)
Definition blen (b : bytes) : Z := Z.of_nat (List.length b).
(** [b[:n]], [b[n:]] and [b[a:b]] for non-negative bounds (slices never raise,
    they are clipped). *)
Definition btake (n : Z) (b : bytes) : bytes := firstn (Z.to_nat n) b.
(** [b[n:]] for n >= 0 (Python slice; used all over mp4filter.py 71-127 and the filters) *)
Definition bdrop (n : Z) (b : bytes) : bytes := skipn (Z.to_nat n) b.
(** [b[a:z]] for non-negative bounds (as in mp4filter.py 77-78) *)
Definition bslice (a z : Z) (b : bytes) : bytes := btake (z - a) (bdrop a b).
(** [b[i]] for a non-negative index *)
Definition byte_at (i : Z) (b : bytes) : result Z :=
  match nth_error b (Z.to_nat i) with Some x => Ok x | None => Err "IndexError" end.

(** [==] on byte strings, and [x in [..]] *)
Fixpoint bytes_eqb (a b : bytes) : bool :=
  match a, b with
  | [], [] => true
  | x :: a', y :: b' => (x =? y) && bytes_eqb a' b'
  | _, _ => false
  end.
(** [x in [...]] on byte strings (mp4filter.py 79, 109) *)
Definition bytes_in (x : bytes) (l : list bytes) : bool := existsb (bytes_eqb x) l.

(** A byte literal b"..." given as ASCII text. *)
Fixpoint bstr (s : string) : bytes :=
  match s with
  | EmptyString => []
  | String c t => Z.of_nat (nat_of_ascii c) :: bstr t
  end.

(** [s.encode("utf-8")] where a Coq character stands for the code point
    0..255 of the same number (code points above 255 are not modelled). *)
Fixpoint encode_utf8 (s : string) : bytes :=
  match s with
  | EmptyString => []
  | String c t =>
      let n := Z.of_nat (nat_of_ascii c) in
      (if n <? 128 then [n] else [192 + n / 64; 128 + n mod 64]) ++ encode_utf8 t
  end.

(** [b.decode("utf-8")] succeeds: the byte string is well-formed UTF-8
    (RFC 3629: no overlong forms, no surrogates, nothing above U+10FFFF). *)
Definition cont (b : Z) : bool := (128 <=? b) && (b <=? 191).
(** [b.decode("utf-8")] does not raise (mp4filter.py 121) *)
Fixpoint utf8_ok (b : bytes) : bool :=
  match b with
  | [] => true
  | x :: t =>
      if x <=? 127 then utf8_ok t
      else if (194 <=? x) && (x <=? 223) then
        match t with y :: t' => cont y && utf8_ok t' | _ => false end
      else if (224 <=? x) && (x <=? 239) then
        match t with
        | y :: z :: t' => cont y && cont z &&
            negb ((x =? 224) && (y <? 160)) && negb ((x =? 237) && (160 <=? y)) && utf8_ok t'
        | _ => false
        end
      else if (240 <=? x) && (x <=? 244) then
        match t with
        | y :: z :: w :: t' => cont y && cont z && cont w &&
            negb ((x =? 240) && (y <? 144)) && negb ((x =? 244) && (144 <=? y)) && utf8_ok t'
        | _ => false
        end
      else false
  end.

(** Big-endian value of a byte string, and the n big-endian bytes of a value:
    the arithmetic behind struct formats ">I", ">Q". *)
Fixpoint be_val_acc (b : bytes) (acc : Z) : Z :=
  match b with [] => acc | x :: t => be_val_acc t (acc * 256 + x) end.
(** the big-endian number of all bytes (struct formats of structops.py 35-47) *)
Definition be_val (b : bytes) : Z := be_val_acc b 0.
(** the [n] big-endian bytes of a number (struct formats of structops.py 50-62) *)
Fixpoint be_bytes (n : nat) (z : Z) : bytes :=
  match n with O => [] | S k => be_bytes k (z / 256) ++ [z mod 256] end.

(** structops.py 35-37, 40-42, 45-47: unpack of ">I", ">i", ">Q"; struct.error
    when the length is wrong. *)
Definition str_to_uint32 (b : bytes) : result Z :=
  if blen b =? 4 then Ok (be_val b) else Err "struct.error".
(** structops.py 40-42: unpack of ">i" *)
Definition str_to_sint32 (b : bytes) : result Z :=
  if blen b =? 4 then
    let v := be_val b in Ok (if v <? 2147483648 then v else v - 4294967296)
  else Err "struct.error".
(** structops.py 45-47: unpack of ">Q" *)
Definition str_to_uint64 (b : bytes) : result Z :=
  if blen b =? 8 then Ok (be_val b) else Err "struct.error".

(** structops.py 50-62: pack of ">I", ">i", ">Q"; struct.error when the value
    is out of range. *)
Definition uint32_to_str (z : Z) : result bytes :=
  if (0 <=? z) && (z <? 4294967296) then Ok (be_bytes 4 z) else Err "struct.error".
(** structops.py 55-57: pack of ">i" *)
Definition sint32_to_str (z : Z) : result bytes :=
  if (-2147483648 <=? z) && (z <? 2147483648) then Ok (be_bytes 4 (z mod 4294967296))
  else Err "struct.error".
(** structops.py 60-62: pack of ">Q" *)
Definition uint64_to_str (z : Z) : result bytes :=
  if (0 <=? z) && (z <? 18446744073709551616) then Ok (be_bytes 8 z) else Err "struct.error".
