(** dash_proxy.py: from an accepted request to the bytes of the reply. *)
From Verif Require Import Base BytesModel ConfigModel ProxyModel Mp4Model MediaModel.
Open Scope Z_scope.

(** The content directory: [files rel_path nr ext] is the content of
    content_dir/content_name/rel_path/<nr><ext>, or the error of opening it. *)
Definition file_store := string -> Z -> string -> result bytes.

(** dash_proxy.py 307-319: the arguments of MediaSegmentFilter.  [emsg] is
    cfg.emsg_last_seg, [now] is dashProv.now, an int (line 97). *)
Definition segment_params (c : config) (r : rep) (sv : served) (dflt : option Z) (now : Z) : mparams :=
  mk_mparams (Some (sv_nr sv)) (c_seg_dur c) (sv_offset sv) (sv_lmsg sv) (Some (rep_timescale r))
    (if String.eqb (rep_type r) "video" then c_scte35 c else 0)
    (String.eqb (rep_type r) "subtitles") dflt (c_insert_sidx c) (sv_emsg sv) (inject_Z now).

(** dash_proxy.py 307-323 [filter_media_segment] *)
Definition filter_media_segment (files : file_store) (c : config) (r : rep) (rel : string) (sv : served)
    (dflt : option Z) (now : Z) : result bytes :=
  let* file := files rel (sv_vod sv) (c_ext c) in
  let* (out, _) := media_filter (segment_params c r sv dflt now) file in
  Ok out.

(** dash_proxy.py 266-283: one representation, not chunked. *)
Definition plain_segment (files : file_store) (c : config) (sv : served) (now : Z) : result bytes :=
  match c_reps c with
  | r :: _ => filter_media_segment files c r (c_rel_path c) sv None now
  | [] => Err "IndexError"
  end.
