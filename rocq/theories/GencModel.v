(** dashlib/mp4.py 547-621: genc_box, which says for each sample of a fragment how
    it is encrypted. *)
From Verif Require Import Base BytesModel ChunkModel ReadersModel.
Open Scope Z_scope.

(** is_encrypted, iv_size and kid; the empty text of 603 is no bytes *)
Definition info : Type := Z * Z * bytes.
(** str or bytes, and == of them: a str is never equal to bytes *)
Inductive pytext := PStr (s : string) | PBytes (b : bytes).
Definition py_eq (a b : pytext) : bool :=
  match a, b with
  | PStr a, PStr b => String.eqb a b
  | PBytes a, PBytes b => bytes_eqb a b
  | _, _ => false
  end.
(** A child of the parent: type (bytes, as read from the file, 240-262), offset, size *)
Record child := mk_child { ch_type : bytes; ch_offset : Z; ch_size : Z }.
(** mp4.py 605-610 get_sibling *)
Fixpoint get_sibling (l : list child) (type_ : pytext) : option child :=
  match l with
  | [] => None
  | c :: l => if py_eq (PBytes (ch_type c)) type_ then Some c else get_sibling l type_
  end.
(** mp4.py 1040-1052 tenc_box: is_encrypted, iv_size, key_id *)
Definition tenc_info (data : bytes) (o : Z) : result info :=
  let* enc := str_to_sint32 (0 :: bslice (o + 12) (o + 15) data) in
  let* iv := s8_at data (o + 15) in
  Ok (enc, iv, bslice (o + 16) (o + 32) data).
(** the attributes of tenc, which may be None *)
Definition tenc_default (data : bytes) (tenc : option Z) : result info :=
  match tenc with Some o => tenc_info data o | None => Err "AttributeError" end.

(** the dictionary _sample_map, newest first *)
Definition smap : Type := list (Z * info).
Fixpoint lookup (i : Z) (m : smap) : option info :=
  match m with [] => None | (k, v) :: m => if k =? i then Some v else lookup i m end.
(** mp4.py 570-573 *)
Fixpoint set_samples (n : nat) (start : Z) (v : info) (m : smap) : smap :=
  match n with O => m | S k => (start + Z.of_nat k, v) :: set_samples k start v m end.
(** mp4.py 559-574: the loop over the groups *)
Fixpoint group_loop (n : nat) (data : bytes) (sbgp : child) (sgpd : option child) (tenc : option Z) (i index : Z) (m : smap)
  : result smap :=
  match n with
  | O => Ok m
  | S k =>
      let* (count, g) := group_entry data (ch_offset sbgp) (ch_size sbgp) i in
      let* v :=
        if g =? 0 then tenc_default data tenc
        else match sgpd with
             | Some s => sgpd_entry data (ch_offset s) (ch_size s) (g - 1)
             | None => Err "AttributeError"
             end in
      group_loop k data sbgp sgpd tenc (i + 1) (index + count) (set_samples (Z.to_nat count) index v m)
  end.
(** mp4.py 552-574 _init_sample_map_from_sbgp; [text] is how the program writes
    the types it looks for *)
Definition map_from_sbgp (text : string -> pytext) (data : bytes) (l : list child) (tenc : option Z) : result smap :=
  match get_sibling l (text "sbgp"%string) with
  | None => Ok []
  | Some sbgp =>
      let* n := sbgp_entries data (ch_offset sbgp) in
      group_loop (Z.to_nat n) data sbgp (get_sibling l (text "sgpd"%string)) tenc 0 0 []
  end.
(** mp4.py 590-595: the loop over the samples *)
Fixpoint fill_loop (n : nat) (data : bytes) (tenc : option Z) (i : Z) (m : smap) : result smap :=
  match n with
  | O => Ok m
  | S k =>
      let* m := match lookup i m with
                | Some _ => Ok m
                | None => let* v := tenc_default data tenc in Ok ((i, v) :: m)
                end in
      fill_loop k data tenc (i + 1) m
  end.
(** mp4.py 576-595 _init_sample_map; [tenc_of] is get_tenc_for_track_id (620-626):
    where the tenc box of a track is, if there is one.  track_id of tfhd is read
    at its place (1233-1235). *)
Definition init_sample_map (text : string -> pytext) (data : bytes) (l : list child) (tenc_of : Z -> option Z) : result smap :=
  match get_sibling l (text "tfhd"%string) with
  | None => Err "AttributeError"
  | Some tfhd =>
      let* track := u32_at data (ch_offset tfhd + 12) in
      let tenc := tenc_of track in
      let* m := map_from_sbgp text data l tenc in
      match get_sibling l (text "saiz"%string) with
      | None => Err "AttributeError"
      | Some saiz => let* n := saiz_count data (ch_offset saiz) in fill_loop (Z.to_nat n) data tenc 0 m
      end
  end.
(** mp4.py 598-603 sample_encrypted_info *)
Definition sample_encrypted_info (m : smap) (index : Z) : info :=
  match lookup index m with Some v => v | None => (0, 0, []) end.
(** mp4.py 548-550: the map after the constructor; nothing calls _init_sample_map *)
Definition constructed : smap := [].
(** mp4.py 553, 556, 579, 584: the types are written as str *)
Definition written : string -> pytext := PStr.
