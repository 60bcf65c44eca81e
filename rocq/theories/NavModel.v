(** dashlib/mp4.py 93-358: the boxes of a file as a tree, and finding boxes in it. *)
From Verif Require Import Base BytesModel ChunkModel LangModel TablesModel EmsgReadModel ReadersModel.
Open Scope Z_scope.

(** mp4.py 238-242: allowed characters for some boxes *)
Definition spelled (t : bytes) : bytes :=
  if bytes_eqb t (bstr "ac-3") then bstr "ac_3" else if bytes_eqb t (bstr "ec-3") then bstr "ec_3" else t.
(** mp4.py 133-135 childpos, and its overrides 711-713, 726-728, 741-743 (audio sample
    entries), 847-849 (video) and 1006-1008 (stsd), relative to the offset *)
Definition child_pos (t : bytes) : Z :=
  if bytes_in t [bstr "mp4a"; bstr "enca"; bstr "ac_3"; bstr "ec_3"] then 36
  else if bytes_in t [bstr "avc1"; bstr "hev1"; bstr "hvc1"; bstr "encv"] then 86
  else if bytes_eqb t (bstr "stsd") then 16
  else 8.
(** mp4.py 253: the type as part of the name of a class *)
Definition class_name (t : bytes) : bytes := map (fun c => if c =? 32 then 95 else c) t.
(** A result that is only there for its errors *)
Definition only_errors {A} (t : bytes) (r : result A) : result bytes := let* _ := r in Ok t.
(** mp4.py 261: the constructor of the class for the type [t]; gives the attribute type
    afterwards, which schm_box (1021-1028) replaces.  [before] are the children of
    the parent so far (see ChunkModel.construct).  Classes that are not modelled
    (pssh, genc, hvcC, tfra, tfma, mfro, sdtp, uuid, afra, asrt, afrt, abst) are taken not
    to raise.  The classes full_box and avcx_box are classes for types too. *)
Definition constructor (data : bytes) (t : bytes) (o size : Z) (before : list pbox) : result bytes :=
  let c := class_name t in
  let is := fun s => bytes_eqb c (bstr s) in
  if bytes_in c [bstr "mfhd"; bstr "tfhd"; bstr "tfdt"; bstr "trun"] then only_errors t (construct c data o before)
  else if bytes_in c [bstr "tfxd"; bstr "tfrf"] then Err "TypeError"
  else if is "mvhd"%string then only_errors t (mvhd_at data o)
  else if is "tkhd"%string then only_errors t (tkhd_at data o size)
  else if is "mdhd"%string then only_errors t (mdhd_at data o size)
  else if is "hdlr"%string then only_errors t (hdlr_at data o size)
  else if is "trex"%string then only_errors t (trex_at data o)
  else if bytes_in c [bstr "mp4a"; bstr "enca"; bstr "ac_3"; bstr "ec_3"] then only_errors t (audio_at data o)
  else if bytes_in c [bstr "avcx"; bstr "avc1"; bstr "avc3"; bstr "hev1"; bstr "hvc1"; bstr "encv"] then only_errors t (avcx_at data o)
  else if is "mp4v"%string then let* _ := s16_at data (o + 32) in only_errors t (s16_at data (o + 34))
  else if bytes_in c [bstr "dac3"; bstr "dec3"] then only_errors t (dac3_at data o size)
  else if is "avcC"%string then only_errors t (avcc_at data o size)
  else if is "esds"%string then only_errors t (esds_at data o size)
  else if bytes_in c [bstr "full"; bstr "stsd"; bstr "saiz"; bstr "saio"; bstr "sbgp"; bstr "sgpd"; bstr "tenc"] then only_errors t (full_at data o)
  else if is "senc"%string then only_errors t (senc_at data o)
  else if is "schm"%string then
    let* _ := full_at data o in let* _ := u16_at data (o + 16) in let* _ := u16_at data (o + 18) in Ok (bslice (o + 12) (o + 16) data)
  else if is "stts"%string then only_errors t (stts_at data o)
  else if is "ctts"%string then only_errors t (ctts_at data o)
  else if is "stss"%string then only_errors t (stss_at data o)
  else if is "stsz"%string then only_errors t (stsz_at data o)
  else if is "stsc"%string then only_errors t (stsc_at data o)
  else if is "stco"%string then only_errors t (stco_at data o)
  else if is "co64"%string then only_errors t (co64_at data o)
  else if bytes_in c [bstr "ftyp"; bstr "styp"] then only_errors t (ftyp_at data o size)
  else if is "sidx"%string then only_errors t (sidx_at data o size)
  else if is "emsg"%string then only_errors t (read_emsg (bslice o (o + size) data))
  else Ok t.

(** mp4.py 222-274 parse_children with recurse=True and no stops, of a box of [self_size]
    bytes, from [pos] on; [done] are the children so far.  Every turn, and every
    step into a child, moves forward by 8 bytes at least. *)
Fixpoint parse_children (fuel : nat) (data : bytes) (self_size pos end_ : Z) (done : list pbox) : result (list pbox) :=
  match fuel with
  | O => Err "diverges"
  | S f =>
      let* size0 := u32_at data pos in
      let t := bslice (pos + 4) (pos + 8) data in
      if negb (blen t =? 4) then Err "struct.error" else
      let t := spelled t in
      let* size := if size0 =? 1 then u64_at data (pos + 8) else Ok size0 in
      if (self_size <? size) || (size <? 8) then Ok done
      else if negb (utf8_ok t) then Err "UnicodeDecodeError"
      else
        let* t' := constructor data t pos size done in
        let* kids := if bytes_in t' container_boxes then parse_children f data size (pos + child_pos t) (pos + size) [] else Ok [] in
        let done := done ++ [PBox t' size pos kids] in
        if end_ <=? pos + size then Ok done else parse_children f data self_size (pos + size) end_ done
  end.
(** mp4.py 311-330: mp4(data), with its tree *)
Definition parse_file (data : bytes) : result pbox :=
  let* kids := parse_children (S (List.length data)) data (blen data) 0 (blen data) [] in
  Ok (PBox (bstr "root") (blen data) 0 kids).

(** A box with the boxes it is in, the nearest first (the attribute parent) *)
Definition place : Type := list pbox.
(** mp4.py 195-199: the children of a box that have a type, with their places *)
Definition matching_children (p : place) (t : bytes) : list place :=
  match p with
  | [] => []
  | b :: _ => map (fun k => k :: p) (filter (fun k => bytes_eqb (p_type k) t) (p_kids b))
  end.
(** mp4.py 187-219: the loop of find.  A path is a list of types of four characters here
    (the path is split at the dots); an empty part (the parent) and parts with an
    attribute are left out.  The tree is complete, so nothing is parsed on the way. *)
Fixpoint find_loop (fuel : nat) (return_first : bool) (queue : list (place * list bytes)) (matches : list place) : result (list place) :=
  match fuel with
  | O => Err "diverges"
  | S f =>
      match queue with
      | [] => Ok matches
      | (p, parts) :: queue =>
          match parts with
          | [] => Err "IndexError"
          | t :: rest =>
              match matching_children p t with
              | [] => find_loop f return_first queue matches
              | m =>
                  match rest with
                  | [] => if return_first then Ok (firstn 1 (matches ++ m)) else find_loop f return_first queue (matches ++ m)
                  | _ => find_loop f return_first (map (fun k => (k, rest)) m ++ queue) matches
                  end
              end
          end
      end
  end.
(** Boxes in a tree: each is in the queue once at most. *)
Fixpoint boxes_in (b : pbox) : nat := let 'PBox _ _ _ kids := b in S (fold_right (fun k n => (boxes_in k + n)%nat) O kids).
(** mp4.py 169-170 find_all; None has no such attribute *)
Definition find_all (p : place) (path : list bytes) : result (list place) :=
  match p with b :: _ => find_loop (S (boxes_in b)) false [(p, path)] [] | [] => Err "AttributeError" end.
(** mp4.py 172-219 find with return_first; None is the empty list *)
Definition find_first (p : place) (path : list bytes) : result (option place) :=
  let* l := match p with b :: _ => find_loop (S (boxes_in b)) true [(p, path)] [] | [] => Err "AttributeError" end in
  Ok (match l with x :: _ => Some x | [] => None end).

(** mp4.py 123-126: attribute size *)
Definition p_size (b : pbox) : Z := let 'PBox _ s _ _ := b in s.
(** box_.parent.parent, mp4.py 336; a missing parent is None, whose attributes raise *)
Definition up (n : nat) (p : place) : place := skipn n p.
(** mp4.py 336-338: time scale and track of the track that a header in its minf belongs to *)
Definition track_of (data : bytes) (p : place) : result (option Z * Z) :=
  let* m := find_first (up 2 p) [bstr "mdhd"] in
  match m with
  | Some (b :: _) =>
      let* h := mdhd_at data (p_offset b) (p_size b) in
      let* t := find_first (up 3 p) [bstr "tkhd"] in
      match t with
      | Some (k :: _) => let* (((track, _), _), _) := tkhd_at data (p_offset k) (p_size k) in Ok (Some track, md_timescale h)
      | _ => Err "AttributeError"
      end
  | _ => Err "AttributeError"
  end.
(** mp4.py 332-338 get_video_info, 340-346 get_audio_info, 348-354 get_timed_text_info:
    only the first tests what it has found ([box] in the others is the class). *)
Definition track_info (header : string) (tested : bool) (data : bytes) : result (option Z * Z) :=
  let* root := parse_file data in
  let* p := find_first [root] (map bstr ["moov"; "trak"; "mdia"; "minf"; header]%string) in
  match p with
  | Some p => track_of data p
  | None => if tested then Ok (None, 0) else Err "AttributeError"
  end.
(** mp4.py 332-338 *)
Definition get_video_info : bytes -> result (option Z * Z) := track_info "vmhd" true.
(** mp4.py 340-346 *)
Definition get_audio_info : bytes -> result (option Z * Z) := track_info "smhd" false.
(** mp4.py 348-354 *)
Definition get_timed_text_info : bytes -> result (option Z * Z) := track_info "nmhd" false.
