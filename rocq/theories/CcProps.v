(** Property theorems; proofs in CcTheory.v, where the examples that meet the
    hypotheses stand beside each lemma. Generated by tools/gen_props.py. *)
From Coq Require Import ZifyBool ZifyNat Permutation.
From Verif Require Import Base BaseProofs BytesModel BytesProofs BoxSpec Mp4Model Mp4Proofs ChunkModel ChunkSpec ChunkParse ChunkTheory.
From Verif Require Import CcModel CcSpec CcProofs CcProofs2 CcProofs3 CcProofs4.
From Verif Require MediaSpec.
From Verif Require Import CcTheory.
Open Scope Z_scope.

(** *** The filter on one segment *)
Theorem C51_filter_partial : forall f d file nr track l mid payload post caps ts time field,
  fragment_is f d file nr track l -> plain_run f -> one_mdat d f mid payload post ->
  Forall (fun m => video_sample (ms_data m)) l -> MediaSpec.decode_time (f_tfdt f) time ->
  0 < ts -> field = 1 \/ field = 2 -> Forall (fun c => (List.length (snd c) <= 31)%nat) caps ->
  8 + blen payload + added field ts caps l < 4294967296 ->
  exists f' l' out x y, cc_filter file caps ts time field = Ok out /\
    fragment_is f' d out nr track l' /\ same_around f f' /\
    f_post f' = mid ++ Leaf (bstr "mdat") (x ++ List.concat (map ms_data l') ++ y) :: post /\
    payload = x ++ List.concat (map ms_data l) ++ y /\
    Forall2 (captioned field ts caps) l l' /\
    Permutation (flat_map (captions_of ts caps) l) (filter (shown ts time (time + seg_dur l)) caps).
Proof. exact C51_filter_partial_pf. Qed.
Print Assumptions C51_filter_partial.

(** The segment as it is written if a caption lies in it: [scc] are all the
    captions of the video. *)
Theorem C51_segment_partial : forall f d file nr track l mid payload post scc ts time field,
  fragment_is f d file nr track l -> plain_run f -> one_mdat d f mid payload post ->
  Forall (fun m => video_sample (ms_data m)) l -> MediaSpec.decode_time (f_tfdt f) time ->
  0 < ts -> field = 1 \/ field = 2 -> Forall (fun c => (List.length (snd c) <= 31)%nat) scc ->
  8 + blen payload + added field ts scc l < 4294967296 ->
  (filter (shown ts time (time + seg_dur l)) scc = [] /\ insert_segment file scc ts time (seg_dur l) field = Ok None) \/
  exists f' l' out x y, insert_segment file scc ts time (seg_dur l) field = Ok (Some out) /\
    fragment_is f' d out nr track l' /\ same_around f f' /\
    f_post f' = mid ++ Leaf (bstr "mdat") (x ++ List.concat (map ms_data l') ++ y) :: post /\
    payload = x ++ List.concat (map ms_data l) ++ y /\
    Forall2 (captioned field ts scc) l l' /\
    Permutation (flat_map (captions_of ts scc) l) (filter (shown ts time (time + seg_dur l)) scc).
Proof. exact C51_segment_partial_pf. Qed.
(* examples meeting the hypotheses: ex_captions_hyps, ex_captions *)
Print Assumptions C51_segment_partial.

(** The words are all there, in order, at most 31 in a caption, which all have
    the time of the line. *)
Theorem C51_words : forall t words,
  List.concat (map snd (line_captions t words)) = words /\
  Forall (fun c => fst c = t /\ (0 < List.length (snd c) <= 31)%nat) (line_captions t words).
Proof. exact C51_words_pf. Qed.
(* examples meeting the hypotheses: ex_words *)
Print Assumptions C51_words.

Theorem C51_default_duration_refuted : exists f d file nr track l payload caps ts time,
  fragment_is f d file nr track l /\ one_mdat d f [] payload [] /\ Forall (fun m => video_sample (ms_data m)) l /\
  MediaSpec.decode_time (f_tfdt f) time /\ filter (shown ts time (time + seg_dur l)) caps <> [] /\
  insert_segment file caps ts time (seg_dur l) 1 = Ok (Some file).
Proof. exact C51_default_duration_refuted_pf. Qed.
Print Assumptions C51_default_duration_refuted.

Theorem C51_first_flags_refuted : exists f d file nr track l payload caps ts time,
  fragment_is f d file nr track l /\ one_mdat d f [] payload [] /\ Forall (fun m => video_sample (ms_data m)) l /\
  MediaSpec.decode_time (f_tfdt f) time /\
  insert_segment file caps ts time (seg_dur l) 1 = Err "struct.error".
Proof. exact C51_first_flags_refuted_pf. Qed.
Print Assumptions C51_first_flags_refuted.

Theorem C51_default_size_refuted : exists f d file nr track l payload caps ts time out f' l',
  fragment_is f d file nr track l /\ one_mdat d f [] payload [] /\ Forall (fun m => video_sample (ms_data m)) l /\
  MediaSpec.decode_time (f_tfdt f) time /\
  insert_segment file caps ts time (seg_dur l) 1 = Ok (Some out) /\
  fragment_is f' d out nr track l' /\
  map ms_data l = [[0; 0; 0; 2; 101; 1]; [0; 0; 0; 2; 65; 3]] /\
  map ms_data l' = [[0; 0; 0; 18; 102; 4]; [14; 181; 0; 49; 71; 65]].
Proof. exact C51_default_size_refuted_pf. Qed.
Print Assumptions C51_default_size_refuted.

Theorem C51_two_fragments_refuted : exists f g d file1 file2 nr track l1 l2 p1 p2 c ts t1 t2 out,
  fragment_is f d file1 nr track l1 /\ plain_run f /\ one_mdat d f [] p1 [] /\ Forall (fun m => video_sample (ms_data m)) l1 /\ MediaSpec.decode_time (f_tfdt f) t1 /\
  fragment_is g d file2 (nr + 1) track l2 /\ plain_run g /\ one_mdat d g [] p2 [] /\ Forall (fun m => video_sample (ms_data m)) l2 /\ MediaSpec.decode_time (f_tfdt g) t2 /\
  t2 = t1 + seg_dur l1 /\ flat_map (captions_of ts [c]) (l1 ++ l2) = [c] /\
  insert_segment (file1 ++ file2) [c] ts t1 (seg_dur (l1 ++ l2)) 1 = Ok (Some out) /\
  blen out = blen (file1 ++ file2) + 3 * blen (caption_bytes 1 [c]).
Proof. exact C51_two_fragments_refuted_pf. Qed.
Print Assumptions C51_two_fragments_refuted.
