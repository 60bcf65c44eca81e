(** Property theorems; proofs in ReadersTheory.v, where the examples that meet the
    hypotheses stand beside each lemma. Generated by tools/gen_props.py. *)
From Verif Require Import Base BaseProofs BytesModel BytesProofs ChunkModel ChunkParse LangModel LangTheory BoxesModel BoxesProofs TablesModel ReadersModel ReadersSpec ReadersProofs.
From Coq Require Import Lia ZArith List.
Import ListNotations.
From Verif Require Import ReadersTheory.
Open Scope Z_scope.

Theorem C80_movie : forall data o n timescale duration next, written data o (W_mvhd timescale duration next) n -> bits 32 timescale -> bits 32 duration ->
  u32_at data o = Ok n /\ mvhd_at data o = Ok (0, 0, timescale, duration).
Proof. exact C80_movie_pf. Qed.
(* examples meeting the hypotheses: C80_movie_case *)
Print Assumptions C80_movie.

Theorem C80_track : forall data o n track duration volume width height, written data o (W_tkhd track duration volume width height) n ->
  bits 32 track -> bits 32 duration -> bits 16 volume -> bits 16 width -> bits 16 height ->
  u32_at data o = Ok n /\ tkhd_at data o n = Ok (track, duration, width, height).
Proof. exact C80_track_pf. Qed.
(* examples meeting the hypotheses: C80_track_case *)
Print Assumptions C80_track.

Theorem C80_handler : forall data o n type name, written data o (W_hdlr type name) n -> blen type = 4 -> bits 32 n ->
  u32_at data o = Ok n /\ hdlr_at data o n = Ok (type, name ++ [0]).
Proof. exact C80_handler_pf. Qed.
(* examples meeting the hypotheses: C80_handler_case *)
Print Assumptions C80_handler.

Theorem C80_defaults : forall data o n track, written data o (W_trex track) n -> bits 32 track ->
  u32_at data o = Ok n /\ trex_at data o = Ok (track, 1, 0, 0, 0).
Proof. exact C80_defaults_pf. Qed.
(* examples meeting the hypotheses: C80_defaults_case *)
Print Assumptions C80_defaults.

Theorem C80_fragment : forall data o n x,
  (written data o (W_mfhd x) n -> bits 32 x -> u32_at data o = Ok n /\ mfhd_at data o = Ok x) /\
  (written data o (W_tfhd x) n -> bits 32 x -> u32_at data o = Ok n /\ tfhd_at data o = Ok (mk_tfhd x None None None None)) /\
  (written data o (W_tfdt x) n -> bits 64 x -> u32_at data o = Ok n /\ tfdt_at data o = Ok x).
Proof. exact C80_fragment_pf. Qed.
(* examples meeting the hypotheses: C80_fragment_case *)
Print Assumptions C80_fragment.

Theorem C80_video_partial : forall data o n coding width height config, written data o (W_visual coding width height config) n -> blen coding = 4 ->
  bits 15 width -> bits 15 height ->
  data_reference_index data o = Ok 1 /\ avcx_at data o = Ok (mk_avcx width height 4718592 4718592 1 24).
Proof. exact C80_video_partial_pf. Qed.
(* examples meeting the hypotheses: C80_video_partial_case *)
Print Assumptions C80_video_partial.

Theorem C80_audio_partial : forall data o n coding channels sample_size sample_rate specific, written data o (W_audio coding channels sample_size sample_rate specific) n ->
  blen coding = 4 -> bits 15 channels -> bits 15 sample_size -> bits 16 sample_rate ->
  data_reference_index data o = Ok 1 /\ audio_at data o = Ok (channels, sample_size, sample_rate).
Proof. exact C80_audio_partial_pf. Qed.
(* examples meeting the hypotheses: C80_audio_partial_case *)
Print Assumptions C80_audio_partial.

Theorem C80_avc : forall data o n profile compat level sps pps, written data o (W_avcC profile compat level sps pps) n ->
  bits 8 profile -> bits 8 compat -> bits 8 level -> bits 16 (blen sps) -> bits 16 (blen pps) ->
  u32_at data o = Ok n /\ avcc_at data o n = Ok (mk_avcc 1 profile compat level 1 sps 1 pps).
Proof. exact C80_avc_pf. Qed.
(* examples meeting the hypotheses: C80_avc_case *)
Print Assumptions C80_avc.

Theorem C80_decoder_partial : forall data o n config, written data o (W_esds config) n -> blen config < 105 ->
  u32_at data o = Ok n /\ esds_at data o n = Ok (mk_esds (Some 1) (Some (64, 21)) (Some config)).
Proof. exact C80_decoder_partial_pf. Qed.
(* examples meeting the hypotheses: C80_decoder_partial_case *)
Print Assumptions C80_decoder_partial.

Theorem C80_entries : forall data o n boxes, written data o (W_stsd boxes) n -> bits 32 (llen boxes) -> stsd_count data o = Ok (llen boxes).
Proof. exact C80_entries_pf. Qed.
(* examples meeting the hypotheses: C80_entries_case *)
Print Assumptions C80_entries.

Theorem C80_sizes : forall data o n default l, written data o (W_saiz default l) n -> bits 8 default -> Forall (bits 8) l -> bits 32 n ->
  u32_at data o = Ok n /\ saiz_count data o = Ok (llen l) /\
  (l = [] -> default <> 0 -> forall i, saiz_size data o i = Ok default) /\
  (forall i x, nth_error l i = Some x -> saiz_size data o (Z.of_nat i) = Ok x).
Proof. exact C80_sizes_pf. Qed.
(* examples meeting the hypotheses: C80_sizes_case *)
Print Assumptions C80_sizes.

Theorem C80_offset : forall data o n offset, written data o (W_saio offset) n -> bits 32 offset ->
  u32_at data o = Ok n /\ saio_count data o = Ok 1 /\ saio_offset data o 0 = Ok offset.
Proof. exact C80_offset_pf. Qed.
(* examples meeting the hypotheses: C80_offset_case *)
Print Assumptions C80_offset.

Theorem C80_groups_partial : forall data o n type l, written data o (W_sgpd type l) n -> bits 32 type -> bits 32 n ->
  Forall (fun g => bits 7 (sg_iv_size g) /\ blen (sg_kid g) = 16) l ->
  u32_at data o = Ok n /\ be_val (grouping_type data o) = type /\ sgpd_entries data o = Ok (llen l) /\
  (forall i g, nth_error l i = Some g -> sgpd_entry data o n (Z.of_nat i) = Ok (if sg_encrypted g then 1 else 0, sg_iv_size g, sg_kid g)) /\
  (forall i, llen l < i -> sgpd_entry data o n i = Ok (0, 0, [])).
Proof. exact C80_groups_partial_pf. Qed.
(* examples meeting the hypotheses: C80_groups_partial_case *)
Print Assumptions C80_groups_partial.

Theorem C80_vectors_partial : forall data o n iv_size l, written data o (W_senc iv_size l) n ->
  (forall s, In s l -> bits 64 (se_iv s) /\ (se_subsamples s = None \/ se_subsamples s = Some [])) -> bits 32 (llen l) ->
  senc_at data o = Ok (map se_iv l).
Proof. exact C80_vectors_partial_pf. Qed.
(* examples meeting the hypotheses: C80_vectors_partial_case *)
Print Assumptions C80_vectors_partial.

Theorem C80_index_partial : forall data o n id timescale earliest version l, written data o (W_sidx id timescale earliest version l) n ->
  (version = 0 /\ bits 32 earliest \/ version = 1 /\ bits 64 earliest) -> bits 32 id -> bits 32 timescale -> bits 16 (llen l) ->
  Forall (fun r => bits 1 (sr_type r) /\ bits 31 (sr_size r) /\ bits 32 (sr_duration r) /\ bits 1 (sr_starts r) /\ bits 3 (sr_sap r) /\ bits 28 (sr_delta r)) l ->
  u32_at data o = Ok n /\
  sidx_at data o n = Ok (mk_sidx id timescale earliest 0 (map (fun r => mk_reference (sr_type r =? 1) (sr_size r) (sr_duration r) (sr_starts r) (sr_sap r) (sr_delta r)) l)).
Proof. exact C80_index_partial_pf. Qed.
(* examples meeting the hypotheses: C80_index_partial_case *)
Print Assumptions C80_index_partial.

Theorem C80_brands : forall data o n styp major minor brands, written data o (W_ftyp styp major minor brands) n -> blen major = 4 -> bits 32 minor ->
  Forall (fun b => blen b = 4) brands -> bits 32 n ->
  u32_at data o = Ok n /\ ftyp_at data o n = Ok (major, minor, brands).
Proof. exact C80_brands_pf. Qed.
(* examples meeting the hypotheses: C80_brands_case *)
Print Assumptions C80_brands.

Theorem C80_cue : forall data o n text, written data o (W_payl text) n -> bits 32 n -> u32_at data o = Ok n /\ payl_at data o n = encode_utf8 text.
Proof. exact C80_cue_pf. Qed.
(* examples meeting the hypotheses: C80_cue_case *)
Print Assumptions C80_cue.

(** ** What is not read as it was written *)
Theorem C80_width_refuted : exists data width, bits 16 width /\ written data 0 (W_visual (bstr "avc1") width 1080 (W_avcC 100 0 40 [] [])) 105 /\
  exists r, avcx_at data 0 = Ok r /\ av_width r < 0.
Proof. exact C80_width_refuted_pf. Qed.
Print Assumptions C80_width_refuted.

Theorem C80_rate_refuted : exists data, written data 0 (W_audio (bstr "mp4a") 2 16 96000 []) 36 /\ audio_at data 0 = Ok (2, 16, 30464).
Proof. exact C80_rate_refuted_pf. Qed.
Print Assumptions C80_rate_refuted.

Theorem C80_decoder_refuted : exists data config n, written data 0 (W_esds config) n /\ blen config = 105 /\
  forall r, esds_at data 0 n = Ok r -> es_type r <> Some (64, 21) \/ es_cfg r <> Some config.
Proof. exact C80_decoder_refuted_pf. Qed.
Print Assumptions C80_decoder_refuted.

Theorem C80_sample_groups_refuted : exists data n, written data 0 (W_sbgp [(5, 1)]) n /\ sbgp_entries data 0 = Ok 5 /\ group_entry data 0 n 0 <> Ok (5, 1).
Proof. exact C80_sample_groups_refuted_pf. Qed.
Print Assumptions C80_sample_groups_refuted.

Theorem C80_vectors_refuted : exists data n l, written data 0 (W_senc 8 l) n /\ l = [mk_senc_sample 77 (Some [(16, 100)]); mk_senc_sample 78 (Some [(16, 100)])] /\
  exists v, senc_at data 0 = Ok v /\ v <> map se_iv l.
Proof. exact C80_vectors_refuted_pf. Qed.
Print Assumptions C80_vectors_refuted.

Theorem C80_group_outside_refuted : exists data n l, written data 3 (W_sgpd 1936025959 l) n /\ sgpd_entry data 3 n (llen l) <> Ok (0, 0, []).
Proof. exact C80_group_outside_refuted_pf. Qed.
Print Assumptions C80_group_outside_refuted.
