(** dashlib/boxes.py: the writer of boxes, init segments and fragments.
    DataPlaceholder (103-109), which nothing uses, is left out. *)
From Verif Require Import Base BytesModel Mp4Model ChunkModel LangModel.
Open Scope Z_scope.

(** ** Fields *)
(** boxes.py 22-25 [serialize_u8] *)
Definition serialize_u8 (x : Z) : bytes := be_bytes 1 (Z.land x 255).
(** boxes.py 46-49 [serialize_name]: struct format 4s cuts off and fills up with 0 *)
Definition serialize_name (x : bytes) : bytes := btake 4 (x ++ [0; 0; 0; 0]).
(** boxes.py 58-61 [serialize_bytes] *)
Definition serialize_bytes (x n : Z) : bytes := List.concat (repeat (serialize_u8 x) (Z.to_nat n)).
(** boxes.py 114-115 [b''.join(self)]: the values in turn, up to the first that raises *)
Fixpoint join_bytes (l : list (result bytes)) : result bytes :=
  match l with
  | [] => Ok []
  | r :: rest => let* a := r in let* b := join_bytes rest in Ok (a ++ b)
  end.
(** The fields of the formats >B, >L and 4s: no value raises. *)
Definition u8 (x : Z) : result bytes := Ok (serialize_u8 x).
(** boxes.py 28-31 [serialize_u16] *)
Definition u16 (x : Z) : result bytes := serialize_u16 x.
(** boxes.py 34-37 [serialize_u32] *)
Definition u32 (x : Z) : result bytes := Ok (serialize_u32 x).
(** boxes.py 40-43 [serialize_u64] *)
Definition u64 (x : Z) : result bytes := uint64_to_str x.
(** boxes.py 46-49 [serialize_name] *)
Definition fourcc (x : bytes) : result bytes := Ok (serialize_name x).
(** boxes.py 52-55 [serialize_string], and values yielded as they are *)
Definition raw (x : bytes) : result bytes := Ok x.

(** ** Boxes *)
(** boxes.py 64 TRUNSample *)
Record run_sample := mk_run_sample { rs_duration : Z; rs_size : Z; rs_sync : bool; rs_offset : Z }.
(** boxes.py 70-76 SBGPGroup and SGPDGroup *)
Record sgpd_group := mk_sgpd_group { sg_encrypted : bool; sg_iv_size : Z; sg_kid : bytes }.
(** boxes.py 79-81 SENCSample and SENCSubsample: pairs of clear and encrypted bytes; the list may be None *)
Record senc_sample := mk_senc_sample { se_iv : Z; se_subsamples : option (list (Z * Z)) }.
(** boxes.py 84-87 SIDXReference *)
Record sidx_ref := mk_sidx_ref { sr_type : Z; sr_size : Z; sr_duration : Z; sr_starts : Z; sr_sap : Z; sr_delta : Z }.

(** The objects: the class with its attributes.  In a W_senc the samples are in
    the order of the calls of add_sample (1156-1163), in a W_sidx the references
    in the order of add_reference (1198-1207); VisualSampleEntry also has a pasp
    that is not used. *)
Inductive wbox :=
| W_sequence (boxes : list wbox)                                   (* 118-128 BoxSequence *)
| W_container (name : bytes) (boxes : list wbox)                   (* 131-148 BoxContainer *)
| W_ftyp (styp : bool) (major : bytes) (minor : Z) (brands : list bytes)   (* 151-170 FTYPBox *)
| W_mvhd (timescale duration next_track : Z)                       (* 182-225 MVHDBox *)
| W_trex (track : Z)                                               (* 276-294 TREXBox *)
| W_tkhd (track duration volume width height : Z)                  (* 297-341 TKHDBox *)
| W_mdhd (timescale duration : Z) (lang : string)                  (* 344-387 MDHDBox *)
| W_hdlr (type name : bytes)                                       (* 390-411 HDLRBox *)
| W_url                                                            (* 414-421 URLBox *)
| W_dref                                                           (* 424-441 DREFBox *)
| W_vmhd                                                           (* 444-461 VMHDBox *)
| W_smhd                                                           (* 464-476 SMHDBox *)
| W_nmhd                                                           (* 479-489 NMHDBox *)
| W_visual (coding : bytes) (width height : Z) (avcc : wbox)       (* 492-530 VisualSampleEntry *)
| W_audio (coding : bytes) (channels sample_size sample_rate : Z) (esds : bytes)  (* 533-561 AudioSampleEntry *)
| W_wvtt                                                           (* 564-580 WVTTSampleEntryBox *)
| W_vttC (config : string)                                         (* 583-596 WVTTConfigBox *)
| W_vtte                                                           (* 606-614 VTTEBox *)
| W_payl (text : string)                                           (* 617-629 PAYLBox *)
| W_stsd (boxes : list wbox)                                       (* 632-653 STSDBox *)
| W_avcC (profile compat level : Z) (sps pps : bytes)              (* 656-689 AVCCBox *)
| W_hvcC (vps sps pps : bytes)                                     (* 692-765 HVCCBox *)
| W_esds (decoder_config : bytes)                                  (* 768-813 ESDSBox *)
| W_pasp                                                           (* 816-828 PASPBox *)
| W_stts                                                           (* 831-842 STTSBox *)
| W_stsc                                                           (* 845-856 STSCBox *)
| W_stsz                                                           (* 859-871 STSZBox *)
| W_stco                                                           (* 874-885 STCOBox *)
| W_tfhd (track : Z)                                               (* 904-920 TFHDBox *)
| W_tfdt (time : Z)                                                (* 923-940 TFDTBox *)
| W_trun (samples : list run_sample) (data_offset : Z)             (* 943-998 TRUNBox *)
| W_mfhd (seq_no : Z)                                              (* 1001-1015 MFHDBox *)
| W_mdat (data : list bytes)                                       (* 1018-1036 MDATBox *)
| W_saiz (default_size : Z) (samples : list Z)                     (* 1039-1063 SAIZBox *)
| W_saio (offset : Z)                                              (* 1066-1081 SAIOBox *)
| W_sbgp (groups : list (Z * Z))                                   (* 1084-1107 SBGPBox *)
| W_sgpd (grouping_type : Z) (groups : list sgpd_group)            (* 1110-1138 SGPDBox *)
| W_senc (iv_size : Z) (samples : list senc_sample)                (* 1141-1181 SENCBox *)
| W_sidx (reference_id timescale earliest version : Z) (refs : list sidx_ref).  (* 1184-1235 SIDXBox *)

(** boxes.py 952-955: use_comp_off after the calls of add_sample *)
Definition has_offsets (l : list run_sample) : bool := existsb (fun s => negb (rs_offset s =? 0)) l.
(** boxes.py 1160: [if subsamples] *)
Definition some_subsamples (s : senc_sample) : bool :=
  match se_subsamples s with Some (_ :: _) => true | _ => false end.
(** boxes.py 1160-1161: flags after the calls of add_sample *)
Definition senc_flags (l : list senc_sample) : Z := if existsb some_subsamples l then 2 else 0.
(** boxes.py 1156-1163: what one call of add_sample adds to sz *)
Definition senc_add (iv_size : Z) (s : senc_sample) : Z :=
  iv_size + (if some_subsamples s then 2 + Z.of_nat (List.length (match se_subsamples s with Some l => l | None => [] end)) * 6 else 0).
(** sum of a list (boxes.py 124, 141, 653, 1036) *)
Definition zsum (l : list Z) : Z := fold_right Z.add 0 l.
(** [len] of a list *)
Definition llen {A} (l : list A) : Z := Z.of_nat (List.length l).

(** The methods [size] of the classes (lines at [wbox]) *)
Fixpoint size (b : wbox) : Z :=
  match b with
  | W_sequence l => (fix go l := match l with [] => 0 | k :: r => size k + go r end) l
  | W_container _ l => 8 + (fix go l := match l with [] => 0 | k :: r => size k + go r end) l
  | W_ftyp _ _ _ brands => 16 + 4 * llen brands
  | W_mvhd _ _ _ => 108
  | W_trex _ => 32
  | W_tkhd _ _ _ _ _ => 92
  | W_mdhd _ _ _ => 32
  | W_hdlr _ name => 33 + blen name
  | W_url => 12
  | W_dref => 16 + 12
  | W_vmhd => 20
  | W_smhd => 16
  | W_nmhd => 12
  | W_visual _ _ _ avcc => 86 + size avcc
  | W_audio _ _ _ _ esds => 36 + blen esds
  | W_wvtt => 16 + (8 + blen (encode_utf8 "WEBVTT"))
  | W_vttC config => 8 + blen (encode_utf8 config)
  | W_vtte => 8
  | W_payl text => 8 + blen (encode_utf8 text)
  | W_stsd l => 16 + (fix go l := match l with [] => 0 | k :: r => size k + go r end) l
  | W_avcC _ _ _ sps pps => 19 + blen sps + blen pps
  | W_hvcC vps sps pps => 46 + blen vps + blen sps + blen pps
  | W_esds config => 37 + blen config
  | W_pasp => 16
  | W_stts => 16
  | W_stsc => 16
  | W_stsz => 20
  | W_stco => 16
  | W_tfhd _ => 16
  | W_tfdt _ => 20
  | W_trun l _ => 20 + llen l * (12 + (if has_offsets l then 4 else 0))
  | W_mfhd _ => 16
  | W_mdat l => 8 + zsum (map blen l)
  | W_saiz _ l => 17 + llen l
  | W_saio _ => 20
  | W_sbgp l => 16 + 8 * llen l
  | W_sgpd _ l => 20 + 20 * llen l
  | W_senc iv l => 16 + zsum (map (senc_add iv) l)
  | W_sidx _ _ _ version l => 32 + 8 * version + 12 * llen l
  end.

(** boxes.py 978-995: the values of one sample of a run *)
Definition run_fields (comp : bool) (s : run_sample) : list (result bytes) :=
  [u32 (rs_duration s); u32 (rs_size s); u32 (if rs_sync s then 33554432 else 16842752)] ++
  (if comp then [u32 (rs_offset s)] else []).
(** boxes.py 1128-1133: one group description *)
Definition group_fields (g : sgpd_group) : list (result bytes) :=
  [u8 0; u8 0; u8 (if sg_encrypted g then 1 else 0); u8 (sg_iv_size g); raw (sg_kid g)].
(** boxes.py 1171-1178: one sample of a senc box *)
Definition senc_fields (flags : Z) (s : senc_sample) : list (result bytes) :=
  u64 (se_iv s) ::
  (if flags =? 2 then
     match se_subsamples s with
     | None => [Err "TypeError"]
     | Some l => u16 (llen l) :: flat_map (fun p => [u16 (fst p); u32 (snd p)]) l
     end
   else []).
(** boxes.py 1226-1232: one reference *)
Definition ref_fields (r : sidx_ref) : list (result bytes) :=
  [u32 (Z.shiftl (sr_type r) 31 + sr_size r); u32 (sr_duration r);
   u32 (Z.shiftl (sr_starts r) 31 + Z.shiftl (sr_sap r) 28 + sr_delta r)].
(** boxes.py 314-315, 205-221, 325-335: the same value several times *)
Definition times (n : nat) (r : result bytes) : list (result bytes) := repeat r n.
(** Transformation matrix of boxes.py 205-213 and 325-335 *)
Definition matrix : list (result bytes) :=
  [u32 65536; u32 0; u32 0; u32 0; u32 65536; u32 0; u32 0; u32 0; u32 1073741824].

(** The methods [__iter__] of the classes (lines at [wbox]), joined by [serialize] (114-115).
    705 names a module that boxes.py does not import, so that HVCCBox always
    raises there; the rest of that method (706-762) is left out. *)
Fixpoint serialize (b : wbox) : result bytes :=
  let header name := [u32 (size b); fourcc (bstr name)] in
  match b with
  | W_sequence l => (fix go l := match l with [] => Ok [] | k :: r => let* x := serialize k in let* y := go r in Ok (x ++ y) end) l
  | W_container name l =>
      join_bytes [u32 (size b); fourcc name;
        (fix go l := match l with [] => Ok [] | k :: r => let* x := serialize k in let* y := go r in Ok (x ++ y) end) l]
  | W_ftyp styp major minor brands =>
      join_bytes (header (if styp then "styp" else "ftyp")%string ++ [fourcc major; u32 minor] ++ map fourcc brands)%list
  | W_mvhd timescale duration next =>
      join_bytes (header "mvhd"%string ++ [u32 0; u32 0; u32 0; u32 timescale; u32 duration; u32 65536; u16 256; u16 0; u32 0; u32 0] ++
                  matrix ++ times 6 (u32 0) ++ [u32 next])%list
  | W_trex track => join_bytes (header "trex"%string ++ [u32 0; u32 track; u32 1; u32 0; u32 0; u32 0])%list
  | W_tkhd track duration volume width height =>
      join_bytes (header "tkhd"%string ++ [u32 7; u32 0; u32 0; u32 track; u32 0; u32 duration; u64 0; u16 0; u16 0; u16 volume; u16 0] ++
                  matrix ++ [u32 (Z.shiftl width 16); u32 (Z.shiftl height 16)])%list
  | W_mdhd timescale duration lang => mdhd_bytes timescale duration lang
  | W_hdlr type name =>
      join_bytes (header "hdlr"%string ++ [u32 0; u32 0; raw type; u32 0; u32 0; u32 0; raw name; u8 0])%list
  | W_url => join_bytes (header "url "%string ++ [u32 1])%list
  | W_dref => join_bytes (header "dref"%string ++ [u32 0; u32 1] ++ [u32 12; fourcc (bstr "url "); u32 1])%list
  | W_vmhd => join_bytes (header "vmhd"%string ++ [u32 0; u16 0] ++ times 6 (u8 0))%list
  | W_smhd => join_bytes (header "smhd"%string ++ [u32 0; u16 0; u16 0])%list
  | W_nmhd => join_bytes (header "nmhd"%string ++ [u32 0])%list
  | W_visual coding width height avcc =>
      join_bytes ([u32 (size b); fourcc coding; raw (serialize_bytes 0 6); u16 1; u16 0; u16 0; raw (serialize_bytes 0 12);
                   u16 width; u16 height; u32 4718592; u32 4718592; raw (serialize_bytes 0 4); u16 1; raw (serialize_bytes 0 32);
                   u16 24; u16 65535] ++ [serialize avcc])
  | W_audio coding channels sample_size sample_rate esds =>
      join_bytes [u32 (size b); fourcc coding; raw (serialize_bytes 0 6); u16 1; raw (serialize_bytes 0 8);
                  u16 channels; u16 sample_size; u16 0; u16 0; u32 (Z.shiftl sample_rate 16); raw esds]
  | W_wvtt =>
      join_bytes (header "wvtt"%string ++ [raw (repeat 0 6%nat); u16 1] ++
                  [u32 (8 + blen (encode_utf8 "WEBVTT")); raw (bstr "vttC"); raw (encode_utf8 "WEBVTT")])%list
  | W_vttC config => join_bytes [u32 (size b); raw (bstr "vttC"); raw (encode_utf8 config)]
  | W_vtte => join_bytes [u32 (size b); raw (bstr "vtte")]
  | W_payl text => join_bytes [u32 (size b); raw (bstr "payl"); raw (encode_utf8 text)]
  | W_stsd l =>
      join_bytes (header "stsd"%string ++ [u32 0; u32 (llen l);
        (fix go l := match l with [] => Ok [] | k :: r => let* x := serialize k in let* y := go r in Ok (x ++ y) end) l])%list
  | W_avcC profile compat level sps pps =>
      join_bytes (header "avcC"%string ++ [u8 1; u8 profile; u8 compat; u8 level; u8 255; u8 225;
                  u16 (blen sps); raw sps; u8 1; u16 (blen pps); raw pps])%list
  | W_hvcC _ _ _ => join_bytes (header "hvcC"%string ++ [Err "NameError"])%list
  | W_esds config =>
      join_bytes (header "esds"%string ++ [u32 0; u8 3; u8 (23 + blen config); u16 1; u8 0;
                  u8 4; u8 (15 + blen config); u8 64; u8 21; u8 0; u8 0; u8 0; u32 0; u32 0;
                  u8 5; u8 (blen config); raw config; u8 6; u8 1; u8 2])%list
  | W_pasp => join_bytes (header "pasp"%string ++ [u32 1; u32 1])%list
  | W_stts => join_bytes (header "stts"%string ++ [u32 0; u32 0])%list
  | W_stsc => join_bytes (header "stsc"%string ++ [u32 0; u32 0])%list
  | W_stsz => join_bytes (header "stsz"%string ++ [u32 0; u32 0; u32 0])%list
  | W_stco => join_bytes (header "stco"%string ++ [u32 0; u32 0])%list
  | W_tfhd track => join_bytes (header "tfhd"%string ++ [u32 131072; u32 track])%list
  | W_tfdt time => join_bytes (header "tfdt"%string ++ [u32 16777216; u64 time])%list
  | W_trun l offset =>
      join_bytes (header "trun"%string ++ [u32 (Z.lor 1793 (if has_offsets l then 2048 else 0)); u32 (llen l); u32 offset] ++
                  flat_map (run_fields (has_offsets l)) l)%list
  | W_mfhd seq_no => join_bytes (header "mfhd"%string ++ [u32 0; u32 seq_no])%list
  | W_mdat l => join_bytes (header "mdat"%string ++ map raw l)%list
  | W_saiz default_size l =>
      join_bytes (header "saiz"%string ++ [u32 0; u8 (match l with [] => default_size | _ => 0 end); u32 (llen l)] ++ map u8 l)%list
  | W_saio offset => join_bytes (header "saio"%string ++ [u32 0; u32 1; u32 offset])%list
  | W_sbgp l => join_bytes (header "sbgp"%string ++ [u32 0; u32 (llen l)] ++ flat_map (fun p => [u32 (fst p); u32 (snd p)]) l)%list
  | W_sgpd type l => join_bytes (header "sgpd"%string ++ [u32 0; u32 type; u32 (llen l)] ++ flat_map group_fields l)%list
  | W_senc _ l => join_bytes (header "senc"%string ++ [u32 (senc_flags l); u32 (llen l)] ++ flat_map (senc_fields (senc_flags l)) l)%list
  | W_sidx id timescale earliest version l =>
      join_bytes (header "sidx"%string ++ [u8 version; u16 0; u8 0; u32 id; u32 timescale] ++
                  (if version =? 0 then [u32 earliest; u32 0] else [u64 earliest; u64 0]) ++
                  [u16 0; u16 (llen l)] ++ flat_map ref_fields l)%list
  end.

(** ** The functions that put boxes together *)
(** boxes.py 1238-1244 [create_empty_sidx], with the defaults of 1198-1200 *)
Definition create_empty_sidx (track timescale : Z) (no_segments : nat) : wbox :=
  W_sidx track timescale 0 1 (repeat (mk_sidx_ref 0 0 0 1 1 0) no_segments).
(** boxes.py 1247-1268 [create_stsd_h264] and [create_stsd_hevc] *)
Definition create_stsd_visual (media_type : bytes) (width height : Z) (config : wbox) : wbox :=
  W_stsd [W_visual media_type width height config].
(** boxes.py 1271-1305 [create_stsd_mp4a] and [create_stsd_ac3] *)
Definition create_stsd_audio (media_type : bytes) (channels sample_size sample_rate : Z) (esds : bytes) : wbox :=
  W_stsd [W_audio media_type channels sample_size sample_rate esds].
(** boxes.py 1308-1313 [create_stsd_mp4s] *)
Definition create_stsd_mp4s : wbox := W_stsd [W_wvtt].
(** boxes.py 1316-1337 [create_minf_box] *)
Definition create_minf_box (stsd media_header : wbox) : wbox :=
  W_container (bstr "minf")
    [media_header; W_container (bstr "dinf") [W_dref];
     W_container (bstr "stbl") [stsd; W_stts; W_stsc; W_stsz; W_stco]].
(** boxes.py 1340-1362 [create_box_mdia] *)
Definition create_box_mdia (media_type handler : bytes) (timescale duration : Z) (language : string) (stsd media_header : wbox) : wbox :=
  W_container (bstr "mdia") [W_mdhd timescale duration language; W_hdlr media_type handler; create_minf_box stsd media_header].
(** [int((duration * MOVIE_TIMESCALE) / timescale)], boxes.py 1367-1369, 1640-1641.  The
    quotient is taken to be exact; the float is, or rounds without reaching the
    next integer, for products below 2 ^ 53. *)
Definition movie_time (duration timescale : Z) : result Z :=
  if timescale =? 0 then Err "ZeroDivisionError" else Ok (Z.quot (duration * 90000) timescale).
(** boxes.py 1540-1632: the attributes of the classes MediaInfo, H264Info, HEVCInfo, MP4AInfo,
    MP4SInfo and AC3Info that are used *)
Record media_info := mk_media_info { mi_track : Z; mi_timescale : Z; mi_duration : Z }.
(** boxes.py 1548-1561 and 1583-1595: H264Info, HEVCInfo *)
Record video_info := mk_video_info { vi_width : Z; vi_height : Z; vi_config : wbox }.
(** boxes.py 1598-1609 and 1619-1632: MP4AInfo and AC3Info; esds or specific_box *)
Record audio_info := mk_audio_info { ai_channels : Z; ai_sample_size : Z; ai_sample_rate : Z; ai_specific : bytes; ai_lang : string }.
(** boxes.py 1365-1401 [create_box_trak_h264], 1404-1439 [create_box_trak_hevc]; the box with
    the decoder configuration and the sample entry type are those of the codec *)
Definition create_box_trak_visual (entry : bytes) (m : media_info) (v : video_info) : result wbox :=
  let* d := movie_time (mi_duration m) (mi_timescale m) in
  Ok (W_container (bstr "trak")
    [W_tkhd (mi_track m) d 0 (vi_width v) (vi_height v);
     create_box_mdia (bstr "vide") (bstr "Edgeware Video Media Handler") (mi_timescale m) (mi_duration m) "und"
       (create_stsd_visual entry (vi_width v) (vi_height v) (vi_config v)) W_vmhd]).
(** boxes.py 1442-1471 [create_box_trak_mp4a] and 1474-1510 [create_box_trak_ac3] *)
Definition create_box_trak_audio (entry : bytes) (m : media_info) (a : audio_info) : result wbox :=
  let* d := movie_time (mi_duration m) (mi_timescale m) in
  Ok (W_container (bstr "trak")
    [W_tkhd (mi_track m) d 256 0 0;
     create_box_mdia (bstr "soun") (bstr "Edgeware Audio Media Handler") (mi_timescale m) (mi_duration m) (ai_lang a)
       (create_stsd_audio entry (ai_channels a) (ai_sample_size a) (ai_sample_rate a) (ai_specific a)) W_smhd]).
(** boxes.py 1513-1537 [create_box_trak_mp4s] *)
Definition create_box_trak_mp4s (m : media_info) (lang : string) : result wbox :=
  let* d := movie_time (mi_duration m) (mi_timescale m) in
  Ok (W_container (bstr "trak")
    [W_tkhd (mi_track m) d 0 0 0;
     create_box_mdia (bstr "text") (bstr "Edgeware Subtitle Media Handler") (mi_timescale m) (mi_duration m) lang
       create_stsd_mp4s W_nmhd]).
(** boxes.py 1650-1653: mvex with trex *)
Definition mvex (track : Z) : wbox := W_container (bstr "mvex") [W_trex track].
(** boxes.py 1635-1747: moov with the movie header and the boxes after it *)
Definition create_moov (m : media_info) (rest : result (list wbox)) : result wbox :=
  let* d := movie_time (mi_duration m) (mi_timescale m) in
  let* l := rest in
  Ok (W_container (bstr "moov") (W_mvhd 90000 d (mi_track m + 1) :: l)).
(** boxes.py 1635-1655 [create_moov_h264] with 1375-1380 *)
Definition create_moov_h264 (m : media_info) (width height profile compat level : Z) (sps pps : bytes) : result wbox :=
  create_moov m (let* trak := create_box_trak_visual (bstr "avc1") m (mk_video_info width height (W_avcC profile compat level sps pps)) in
                 Ok [trak; mvex (mi_track m)]).
(** boxes.py 1658-1678 [create_moov_hevc] with 1414-1417 *)
Definition create_moov_hevc (m : media_info) (width height : Z) (vps sps pps : bytes) : result wbox :=
  create_moov m (let* trak := create_box_trak_visual (bstr "hev1") m (mk_video_info width height (W_hvcC vps sps pps)) in
                 Ok [trak; mvex (mi_track m)]).
(** boxes.py 1681-1701 [create_moov_mp4a] *)
Definition create_moov_mp4a (m : media_info) (a : audio_info) : result wbox :=
  create_moov m (let* trak := create_box_trak_audio (bstr "mp4a") m a in Ok [mvex (mi_track m); trak]).
(** boxes.py 1483-1488: the sample entry type of a codec name *)
Definition ac3_type (codec : string) : result bytes :=
  if String.eqb codec "ac-3" then Ok (bstr "ac-3")
  else if String.eqb codec "ec-3" || String.eqb codec "ec+3" then Ok (bstr "ec-3")
  else Err "ValueError".
(** boxes.py 1704-1724 [create_moov_ac3] *)
Definition create_moov_ac3 (codec : string) (m : media_info) (a : audio_info) : result wbox :=
  create_moov m (let* t := ac3_type codec in let* trak := create_box_trak_audio t m a in Ok [mvex (mi_track m); trak]).
(** boxes.py 1727-1751 [create_moov_mp4s] *)
Definition create_moov_mp4s (m : media_info) (lang : string) : result wbox :=
  create_moov m (let* trak := create_box_trak_mp4s m lang in Ok [mvex (mi_track m); trak]).
(** boxes.py 1816-1823 [create_ftyp] and [create_styp] *)
Definition create_ftyp : wbox := W_ftyp false (bstr "cmfc") 0 [bstr "iso9"; bstr "dash"].
(** boxes.py 1821-1823 [create_styp] *)
Definition create_styp : wbox := W_ftyp true (bstr "cmfs") 0 [bstr "iso9"; bstr "dash"].
(** boxes.py 1796-1801: the calls of add_sample *)
Definition run_of (s : sample) : run_sample := mk_run_sample (s_dur s) (blen (s_data s)) (s_sync s) (s_cto s).
(** boxes.py 1754-1806 [create_moof].  [aux]: what the encryptor returns, when there is
    one; the samples are those after its call.  At 1789 moof has the boxes up to
    saiz, the size of which is 85. *)
Definition moof_box (segment_no track : Z) (samples : list sample) (aux : option (list senc_sample)) : result wbox :=
  let* s0 := match samples with s :: _ => Ok s | [] => Err "IndexError" end in
  let before := [W_tfhd track; W_tfdt (s_time s0)] in
  let moof traf := W_container (bstr "moof") [W_mfhd segment_no; W_container (bstr "traf") traf] in
  let boxes :=
    match aux with
    | None => before
    | Some l => before ++ [W_saiz 8 []; W_saio (size (moof (before ++ [W_saiz 8 []])) + 16 + 20); W_senc 8 l]
    end in
  let with_run offset := moof (boxes ++ [W_trun (map run_of samples) offset]) in
  Ok (with_run (size (with_run 0) + 8)).
(** boxes.py 1809-1813 [create_mdat] *)
Definition mdat_box (samples : list sample) : wbox := W_mdat (map s_data samples).
