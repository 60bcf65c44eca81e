(** dashlib/mp4filter.py: the generic box filter, as a function of the
    subclass. *)
From Verif Require Import Base BytesModel.
Open Scope Z_scope.

(** What a subclass of MP4Filter contributes.  [S] is the type of the instance
    attributes that its methods change.  [fc_method t] is
    [getattr(self, "process_" + t, None)].  [fc_note] is the effect of lines
    99-102 (recording moof_start and mdat_start), the identity for subclasses
    that never read these attributes.  [fc_finalize] gets the output and
    output_top_level_boxes. *)
Record fclass (S : Type) := mk_fclass {
  fc_top : list bytes;
  fc_composite : list bytes;
  fc_note : bytes -> Z -> S -> S;
  fc_method : bytes -> option (bytes -> S -> result (bytes * S));
  fc_finalize : bytes -> list (Z * bytes) -> S -> result bytes
}.
Arguments mk_fclass {S}.
Arguments fc_top {S}. Arguments fc_composite {S}. Arguments fc_note {S}.
Arguments fc_method {S}. Arguments fc_finalize {S}.

(** mp4filter.py 65-69 [check_box], on data[pos:pos+8]. *)
Definition check_box (d : bytes) : result (Z * bytes) :=
  let* size := str_to_uint32 (btake 4 d) in
  Ok (size, bslice 4 8 d).

(** The method dispatch of lines 121-126; boxtype.decode raises on types that
    are not UTF-8. *)
Definition process_leaf {S} (cls : fclass S) (boxtype data : bytes) (st : S) : result (bytes * S) :=
  if utf8_ok boxtype then
    match fc_method cls boxtype with
    | Some m => m data st
    | None => Ok (data, st)
    end
  else Err "UnicodeDecodeError".

(** The while loop of lines 113-117 over the children; [rec] is the recursive
    call of filter_box.  Python's loop has no bound: running out of [fuel] is
    reported as "diverges" (see C53). *)
Fixpoint child_loop {S} (rec : bytes -> bytes -> Z -> S -> result (bytes * S))
    (fuel : nat) (data : bytes) (file_pos pos : Z) (output : bytes) (st : S)
    : result (bytes * S) :=
  match fuel with
  | O => Err "diverges"
  | Datatypes.S f =>
      if pos <? blen data then
        let* (child_size, child_box_type) := check_box (bslice pos (pos + 8) data) in
        let* (output_child_box, st1) :=
          rec child_box_type (bslice pos (pos + child_size) data) (file_pos + pos) st in
        child_loop rec f data file_pos (pos + child_size) (output ++ output_child_box) st1
      else Ok (output, st)
  end.

(** mp4filter.py 96-127 [filter_box]; [path] only feeds debug prints. *)
Fixpoint filter_box {S} (cls : fclass S) (fuel : nat) (boxtype data : bytes) (file_pos : Z) (st : S)
    : result (bytes * S) :=
  match fuel with
  | O => Err "diverges"
  | Datatypes.S f =>
      let st0 := fc_note cls boxtype file_pos st in
      if bytes_in boxtype (fc_composite cls) then
        let* (output, st1) := child_loop (filter_box cls f) f data file_pos 8 (btake 8 data) st0 in
        if negb (blen output =? blen data) then
          let* sz := uint32_to_str (blen output) in
          Ok (sz ++ bdrop 4 output, st1)
        else Ok (output, st1)
      else process_leaf cls boxtype data st0
  end.

(** mp4filter.py 71-94 [filter]: the loop of lines 76-88.  [boxes] is
    output_top_level_boxes.  next_phase_data stays empty in all subclasses, so
    lines 89-92 never run. *)
Fixpoint top_loop {S} (cls : fclass S) (fuel : nat) (data : bytes) (pos : Z) (output : bytes)
    (boxes : list (Z * bytes)) (st : S) : result (bytes * list (Z * bytes) * S) :=
  match fuel with
  | O => Err "diverges"
  | Datatypes.S f =>
      if pos <? blen data then
        let* (size, boxtype) := check_box (bslice pos (pos + 8) data) in
        let boxdata := bslice pos (pos + size) data in
        let* (out1, st1) :=
          if bytes_in boxtype (fc_top cls)
          then filter_box cls f boxtype boxdata (blen output) st
          else Ok (boxdata, st) in
        let boxes1 := if 0 <? blen out1 then boxes ++ [(blen out1, boxtype)] else boxes in
        top_loop cls f data (pos + size) (output ++ out1) boxes1 st1
      else Ok (output, boxes, st)
  end.

(** mp4filter.py 71-94 [filter]: the loop, then finalize *)
Definition mp4_filter {S} (cls : fclass S) (fuel : nat) (data : bytes) (st : S)
    : result (bytes * S) :=
  let* (output, boxes, st1) := top_loop cls fuel data 0 [] [] st in
  let* out := fc_finalize cls output boxes st1 in
  Ok (out, st1).

(** Enough fuel for every input in which no box that is looked at has size 0
    (C53). *)
Definition enough (data : bytes) : nat := Datatypes.S (Datatypes.S (List.length data)).
