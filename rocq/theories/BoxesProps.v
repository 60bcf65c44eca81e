(** Property theorems; proofs in BoxesTheory.v, where the examples that meet the
    hypotheses stand beside each lemma. Generated by tools/gen_props.py. *)
From Verif Require Import Base BaseProofs BytesModel BytesProofs BoxSpec ChunkModel LangModel LangTheory BoxesModel BoxesSpec BoxesProofs.
From Coq Require Import Lia ZArith List.
Import ListNotations.
From Verif Require Import BoxesTheory.
Open Scope Z_scope.

Theorem C77_complete_partial : forall b out, proper b -> serialize b = Ok out ->
  blen out = size b /\ (blen out < 4294967296 -> complete out).
Proof. exact C77_complete_partial_pf. Qed.
Print Assumptions C77_complete_partial.

Theorem C77_init_partial : forall b out, init_box b -> serialize b = Ok out ->
  blen out = size b /\ (blen out < 4294967296 -> complete out).
Proof. exact C77_init_partial_pf. Qed.
Print Assumptions C77_init_partial.

(** The chunker writes these boxes. *)
Theorem C77_chunks : forall nr track l, (let* b := moof_box nr track l None in serialize b) = create_moof nr track l /\
  serialize (mdat_box l) = Ok (create_mdat l).
Proof. exact C77_chunks_pf. Qed.
Print Assumptions C77_chunks.

(** The run says where the media data are. *)
Theorem C77_media_data : forall nr track l aux b out, aux_ok aux -> moof_box nr track l aux = Ok b -> serialize b = Ok out ->
  blen out + 8 < 4294967296 ->
  exists pre run mdat, out = pre ++ run /\ bslice 4 8 run = bstr "trun" /\ serialize (mdat_box l) = Ok mdat /\
    (blen mdat < 4294967296 -> complete (out ++ mdat)) /\
    bdrop (be_val (bslice 16 20 run)) (out ++ mdat) = List.concat (map s_data l).
Proof. exact C77_media_data_pf. Qed.
Print Assumptions C77_media_data.

(** With encryption, the offset box says where the first initialization vector is. *)
Theorem C77_first_iv : forall nr track l s aux b out, moof_box nr track l (Some (s :: aux)) = Ok b -> serialize b = Ok out ->
  bslice 89 93 out = bstr "saio" /\ 0 <= se_iv s < 18446744073709551616 /\
  (let o := be_val (bslice 101 105 out) in be_val (bslice o (o + 8) out) = se_iv s).
Proof. exact C77_first_iv_pf. Qed.
Print Assumptions C77_first_iv.

Theorem C77_written : forall m, mi_timescale m <> 0 ->
  (forall w h pr co le sps pps, 0 <= w < 65536 -> 0 <= h < 65536 -> blen sps < 65536 -> blen pps < 65536 ->
     exists b out, create_moov_h264 m w h pr co le sps pps = Ok b /\ serialize b = Ok out) /\
  (forall a, 0 <= ai_channels a < 65536 -> 0 <= ai_sample_size a < 65536 ->
     (exists b out, create_moov_mp4a m a = Ok b /\ serialize b = Ok out) /\
     (forall codec, In codec ["ac-3"; "ec-3"; "ec+3"]%string -> exists b out, create_moov_ac3 codec m a = Ok b /\ serialize b = Ok out)) /\
  (forall lang, exists b out, create_moov_mp4s m lang = Ok b /\ serialize b = Ok out).
Proof. exact C77_written_pf. Qed.
Print Assumptions C77_written.

Theorem C77_hevc_refuted :
  (exists m w h vps sps pps b, create_moov_hevc m w h vps sps pps = Ok b /\ serialize b = Err "NameError") /\
  (forall m w h vps sps pps b out, create_moov_hevc m w h vps sps pps = Ok b -> serialize b <> Ok out).
Proof. exact C77_hevc_refuted_pf. Qed.
Print Assumptions C77_hevc_refuted.

Theorem C77_size_refuted :
  (exists type name out, serialize (W_hdlr type name) = Ok out /\ announced out <> blen out) /\
  (exists type groups out, serialize (W_sgpd type groups) = Ok out /\ announced out <> blen out) /\
  (exists samples out, serialize (W_senc 8 samples) = Ok out /\ announced out <> blen out) /\
  (exists iv samples out, senc_uniform samples /\ serialize (W_senc iv samples) = Ok out /\ announced out <> blen out) /\
  (exists version refs out, serialize (W_sidx 1 90000 0 version refs) = Ok out /\ announced out <> blen out) /\
  (exists data out, serialize (W_mdat data) = Ok out /\ announced out <> blen out).
Proof. exact C77_size_refuted_pf. Qed.
Print Assumptions C77_size_refuted.

(** The box with the sizes of the auxiliary data has none of them, and 8 bytes as size of all. *)
Theorem C77_saiz_refuted : exists nr track l aux b out, aux_ok (Some aux) /\ List.length aux = List.length l /\
  moof_box nr track l (Some aux) = Ok b /\ serialize b = Ok out /\
  bslice 72 76 out = bstr "saiz" /\ be_val (bslice 81 85 out) <> Z.of_nat (List.length l) /\
  be_val (bslice 80 81 out) <> 8 + 2 + 6.
Proof. exact C77_saiz_refuted_pf. Qed.
(* examples meeting the hypotheses: C77_init_case, C77_fragment_case, C77_chunks_case, C77_written_case *)
Print Assumptions C77_saiz_refuted.
