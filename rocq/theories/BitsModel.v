(** Model of dashlivesim/dashlib/bitwriter.py and bitreader.py.  Bytes are
    integers; the length argument is an integer as in Python.  Left out: the
    printing of read_bits, slicing of a writer (__getitem__, __len__). *)
From Verif Require Import Base.
Open Scope Z_scope.

(** ** Bitwriter, bitwriter.py 1-48 *)
Record writer := mk_writer { w_bytes : list Z; w_cur : Z; w_n : Z }.
(** bitwriter.py 11-14 *)
Definition writer_init : writer := mk_writer [] 0 0.
(** bitwriter.py 4: 34 masks.  The index is never negative where it is used. *)
Definition mask (n : Z) : result Z := if n <? 34 then Ok (Z.ones n) else Err "IndexError".
(** [bytearray.append(x)] (bitwriter.py 33) *)
Definition append_byte (x : Z) (l : list Z) : result (list Z) :=
  if (0 <=? x) && (x <? 256) then Ok (l ++ [x]) else Err "ValueError".
(** bitwriter.py 28-37; every turn takes at least one bit, so nr_bits turns are
    enough. *)
Fixpoint add_loop (fuel : nat) (data todo : Z) (w : writer) : result (Z * Z * writer) :=
  if todo + w_n w <? 8 then Ok (data, todo, w)
  else
    match fuel with
    | O => Err "diverges"
    | S f =>
        let ins := 8 - w_n w in
        let bits := Z.shiftr data (todo - ins) in
        let* l := append_byte (Z.lor (Z.shiftl (w_cur w) ins) bits) (w_bytes w) in
        let todo := todo - ins in
        let* m := mask todo in
        add_loop f (Z.land data m) todo (mk_writer l 0 0)
    end.
(** bitwriter.py 22-42 *)
Definition add_bits (data nr_bits : Z) (w : writer) : result writer :=
  let* (data, todo, w) := add_loop (Z.to_nat nr_bits) data nr_bits w in
  if 0 <? todo then
    let* m := mask todo in
    Ok (mk_writer (w_bytes w) (Z.lor (Z.shiftl (w_cur w) todo) (Z.land data m)) (w_n w + todo))
  else Ok w.
(** bitwriter.py 44-45; the bytes are taken as they are. *)
Definition add_bytes (l : list Z) (w : writer) : writer := mk_writer (w_bytes w ++ l) (w_cur w) (w_n w).
(** bitwriter.py 47-48 *)
Definition get_bytes (w : writer) : list Z := w_bytes w.

(** ** bitreader, bitreader.py 10-70 *)
Record reader := mk_reader { r_buf : list Z; r_bit_pos : Z; r_byte : Z; r_index : Z; r_bit : Z }.
(** bitreader.py 14-19: an empty buffer raises. *)
Definition reader_init (buf : list Z) : result reader :=
  match buf with [] => Err "error" | b :: _ => Ok (mk_reader buf 7 b 1 0) end.
(** bitreader.py 30-45, one turn; [mask] is always 1 << bit_pos. *)
Definition get_bit (num : Z) (r : reader) : Z * reader :=
  let num := Z.shiftl num 1 in
  let num := if Z.land (r_byte r) (Z.shiftl 1 (r_bit_pos r)) =? 0 then num else Z.lor num 1 in
  if r_bit_pos r - 1 <? 0 then
    (num, mk_reader (r_buf r) 7 (nth (Z.to_nat (r_index r)) (r_buf r) 0) (r_index r + 1) (r_bit r + 1))
  else (num, mk_reader (r_buf r) (r_bit_pos r - 1) (r_byte r) (r_index r) (r_bit r + 1)).
(** bitreader.py 28-45: the loop over the bits *)
Fixpoint get_loop (n : nat) (num : Z) (r : reader) : Z * reader :=
  match n with O => (num, r) | S m => let '(num, r) := get_bit num r in get_loop m num r end.
(** bitreader.py 21-47; a negative number of bits never gets to 0. *)
Definition get_bits (num_bits : Z) (r : reader) : result (Z * reader) :=
  if num_bits <? 0 then Err "diverges" else Ok (get_loop (Z.to_nat num_bits) 0 r).
(** bitreader.py 49-56, for a length >= 0: bytes from the current byte on, even when
    some of its bits have been read. *)
Definition step_bytes (n : Z) (r : reader) : result (list Z * reader) :=
  let start := Z.to_nat (r_index r - 1) in
  let* (_, r') := get_bits (8 * n) r in
  Ok (firstn (Z.to_nat n) (skipn start (r_buf r)), r').
(** bitreader.py 68-70 *)
Definition remaining_bits (r : reader) : Z := Z.of_nat (List.length (r_buf r)) * 8 - r_bit r.

(** ue, bitreader.py 87-98.  The bits after the end of the buffer are 0: when no bit is
    left set the loop does not end. *)
Fixpoint ue_zeros (fuel : nat) (zeros : Z) (r : reader) : result (Z * reader) :=
  match fuel with
  | O => Err "diverges"
  | S f =>
      let* (b, r) := get_bits 1 r in
      if b =? 0 then ue_zeros f (zeros + 1) r else Ok (zeros, r)
  end.
(** bitreader.py 87-98: the whole function *)
Definition ue (r : reader) : result (Z * reader) :=
  let* (zeros, r) := ue_zeros (S (Z.to_nat (remaining_bits r))) 0 r in
  let* (x, r) := get_bits zeros r in
  Ok (2 ^ zeros - 1 + x, r).

(** A sequence of add_bits calls, bitwriter.py 22-42. *)
Fixpoint write_fields (l : list (Z * Z)) (w : writer) : result writer :=
  match l with [] => Ok w | (v, n) :: r => let* w := add_bits v n w in write_fields r w end.
(** A sequence of get_bits calls, bitreader.py 21-47, one for each length of the list. *)
Fixpoint read_fields (l : list Z) (r : reader) : result (list Z * reader) :=
  match l with
  | [] => Ok ([], r)
  | n :: rest =>
      let* (x, r) := get_bits n r in
      let* (xs, r) := read_fields rest r in
      Ok (x :: xs, r)
  end.
