(** Property theorems; proofs in NavTheory.v, where the examples that meet the
    hypotheses stand beside each lemma. Generated by tools/gen_props.py. *)
From Coq Require Import ZifyBool ZifyNat.
From Verif Require Import Base BaseProofs BytesModel BytesProofs BoxSpec ChunkModel BoxesModel LangModel ReadersModel NavModel NavSpec NavProofs NavTracks.
From Verif Require Import NavTheory.
Open Scope Z_scope.

Theorem C82_parse_partial : forall l, l <> [] -> Forall well_made l -> file_readable l -> parse_file (file_bytes l) = Ok (file_tree l).
Proof. exact C82_parse_partial_pf. Qed.
Print Assumptions C82_parse_partial.

Theorem C82_find : forall p path, p <> [] -> path <> [] ->
  exists l, find_all p path = Ok l /\ find_first p path = Ok (hd_error l) /\ forall q, In q l <-> reached p path q.
Proof. exact C82_find_pf. Qed.
Print Assumptions C82_find.

Theorem C82_order : forall l path places, Forall well_made l -> path <> [] -> find_all [file_tree l] path = Ok places -> in_file_order places.
Proof. exact C82_order_pf. Qed.
Print Assumptions C82_order.

Theorem C82_tracks_partial : forall l tkhd mdhd track scale, Forall well_made l -> file_readable l -> header_says tkhd track -> header_says mdhd scale ->
  (first_track "vmhd" l tkhd mdhd -> get_video_info (file_bytes l) = Ok (Some track, scale)) /\
  (first_track "smhd" l tkhd mdhd -> get_audio_info (file_bytes l) = Ok (Some track, scale)) /\
  (first_track "nmhd" l tkhd mdhd -> get_timed_text_info (file_bytes l) = Ok (Some track, scale)).
Proof. exact C82_tracks_partial_pf. Qed.
Print Assumptions C82_tracks_partial.

Theorem C82_no_video_partial : forall l, l <> [] -> Forall well_made l -> file_readable l -> no_track "vmhd" l -> get_video_info (file_bytes l) = Ok (None, 0).
Proof. exact C82_no_video_partial_pf. Qed.
(* examples meeting the hypotheses: C82_parse_partial_case, C82_find_case, C82_order_case, C82_tracks_partial_case, C82_no_video_partial_case *)
Print Assumptions C82_no_video_partial.

(** An empty box for boxes at the end of the file *)
Theorem C82_empty_last_refuted : exists l e, Forall formed l /\ parse_file (file_bytes l) = Err e.
Proof. exact C82_empty_last_refuted_pf. Qed.
Print Assumptions C82_empty_last_refuted.

(** An empty box for boxes takes in the boxes after it. *)
Theorem C82_empty_refuted : exists l, Forall formed l /\ ~ found l.
Proof. exact C82_empty_refuted_pf. Qed.
Print Assumptions C82_empty_refuted.

(** A type with a byte above 127, such as the copyright sign in the names of meta data *)
Theorem C82_type_refuted : exists l, Forall formed l /\ parse_file (file_bytes l) = Err "UnicodeDecodeError".
Proof. exact C82_type_refuted_pf. Qed.
Print Assumptions C82_type_refuted.

(** The scheme of a protected track gets another type. *)
Theorem C82_scheme_refuted : exists l b, Forall formed l /\ parse_file (file_bytes l) = Ok b /\ find_first [b] (map bstr ["sinf"; "schm"]%string) = Ok None
  /\ find_first [file_tree l] (map bstr ["sinf"; "schm"]%string) <> Ok None.
Proof. exact C82_scheme_refuted_pf. Qed.
Print Assumptions C82_scheme_refuted.

(** AC-3 sound *)
Theorem C82_ac3_refuted : exists l, Forall formed l /\ parse_file (file_bytes l) = Err "TypeError".
Proof. exact C82_ac3_refuted_pf. Qed.
Print Assumptions C82_ac3_refuted.

(** Sizes of 64 bits and no size (ISO/IEC 14496-12 4.2) *)
Theorem C82_long_refuted : exists l b, Forall well_made l /\ l <> [] /\ parse_file (be32 1 ++ bstr "moov" ++ be64 (16 + blen (file_bytes l)) ++ file_bytes l) = Ok b
  /\ find_all [b] [bstr "moov"; n_type (hd C82_ftyp l)] = Ok [].
Proof. exact C82_long_refuted_pf. Qed.
Print Assumptions C82_long_refuted.

Theorem C82_to_end_refuted : exists l p b, Forall well_made l /\ parse_file (file_bytes l ++ be32 0 ++ bstr "mdat" ++ p) = Ok b /\ find_all [b] [bstr "mdat"] = Ok [].
Proof. exact C82_to_end_refuted_pf. Qed.
Print Assumptions C82_to_end_refuted.

(** A file without sound *)
Theorem C82_no_audio_refuted : exists l, Forall well_made l /\ file_readable l /\ no_track "smhd" l /\ no_track "nmhd" l /\ get_audio_info (file_bytes l) = Err "AttributeError"
  /\ get_timed_text_info (file_bytes l) = Err "AttributeError".
Proof. exact C82_no_audio_refuted_pf. Qed.
Print Assumptions C82_no_audio_refuted.

(** The parameter sets of a track with the sample entry avc3 (ISO/IEC 14496-15 5.4.2) *)
Theorem C82_avc3_refuted : exists l b, parse_file (file_bytes l) = Ok b /\ find_first [b] (map bstr ["stsd"; "avc3"; "avcC"]%string) = Ok None
  /\ find_first [file_tree l] (map bstr ["stsd"; "avc3"; "avcC"]%string) <> Ok None.
Proof. exact C82_avc3_refuted_pf. Qed.
Print Assumptions C82_avc3_refuted.
