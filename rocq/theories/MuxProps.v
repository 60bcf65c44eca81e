(** Property theorems; proofs in MuxTheory.v, where the examples that meet the
    hypotheses stand beside each lemma. Generated by tools/gen_props.py. *)
From Coq Require Import ZifyBool ZifyNat.
From Verif Require Import Base BaseProofs BytesModel BytesProofs BoxSpec Mp4Model Mp4Proofs InitModel InitSpec InitProofs MuxModel MuxSpec MuxProofs MediaProofs MediaProofs2.
From Verif Require Import MuxTheory.
Open Scope Z_scope.

(** The multiplexed segment has one fragment with both track fragments, equal
    to the given ones but for the data offsets, and one media data box with
    both media data; each new data offset leads to the very bytes the old one
    led to. *)
Theorem C39_joint_partial : forall a b, fragment_ok a -> fragment_ok b ->
  blen (fr_mfhd a) = blen (fr_mfhd b) ->
  blen (encs (seg_of a)) + blen (encs (seg_of b)) < 4294967296 ->
  designates_media a 0 -> designates_media b 0 ->
  exists o1 o2,
    mux_media (encs (seg_of a)) (encs (seg_of b)) = Ok (encs (joint a b o1 o2)) /\
    (forall n, designates_media a n ->
       bslice (joint_moof_at a + o1) (joint_moof_at a + o1 + n) (encs (joint a b o1 o2)) =
       bslice (moof_at a + fr_offset a) (moof_at a + fr_offset a + n) (encs (seg_of a))) /\
    (forall n, designates_media b n ->
       bslice (joint_moof_at a + o2) (joint_moof_at a + o2 + n) (encs (joint a b o1 o2)) =
       bslice (moof_at b + fr_offset b) (moof_at b + fr_offset b + n) (encs (seg_of b))).
Proof. exact C39_joint_partial_pf. Qed.
(* examples meeting the hypotheses: C39_joint_case *)
Print Assumptions C39_joint_partial.

Theorem C39_two_runs_refuted : exists o o' o'' t2 m1 m2 l2,
  let l1 := ex_seg [ex_mfhd; Node (bstr "traf") [ex_run o; ex_run o']] m1 in
  let j := ex_seg [ex_mfhd; Node (bstr "traf") [ex_run o; ex_run o'']; t2] (m1 ++ m2) in
  boxes_ok moof_nodes any_payload l1 /\ boxes_ok moof_nodes any_payload l2 /\
  mux_media (encs l1) (encs l2) = Ok (encs j) /\
  bslice (12 + o) (12 + o + 2) (encs l1) = btake 2 m1 /\
  bslice (12 + o) (12 + o + 2) (encs j) <> btake 2 m1.
Proof. exact C39_two_runs_refuted_pf. Qed.
Print Assumptions C39_two_runs_refuted.

(** An extra box in the second movie fragment shifts the samples of the second
    track. *)
Theorem C39_extra_box_refuted : exists x o1 o1' o2 o2' m1 m2,
  let l1 := ex_seg [ex_mfhd; Node (bstr "traf") [ex_run o1]] m1 in
  let l2 := ex_seg [ex_mfhd; x; Node (bstr "traf") [ex_run o2]] m2 in
  let j := ex_seg [ex_mfhd; Node (bstr "traf") [ex_run o1']; Node (bstr "traf") [ex_run o2']] (m1 ++ m2) in
  boxes_ok moof_nodes any_payload l1 /\ boxes_ok moof_nodes any_payload l2 /\
  mux_media (encs l1) (encs l2) = Ok (encs j) /\
  bslice (12 + o2) (12 + o2 + 4) (encs l2) = m2 /\
  bslice (12 + o2') (12 + o2' + 4) (encs j) <> m2.
Proof. exact C39_extra_box_refuted_pf. Qed.
Print Assumptions C39_extra_box_refuted.

(** The offset of the sample auxiliary information (saio, relative to the
    movie fragment) of the second track is not adjusted. *)
Theorem C39_aux_info_refuted : exists o1 o1' o2 o2' so senc m1 m2,
  let saio := Leaf (bstr "saio") (be32 0 ++ be32 1 ++ be32 so) in
  let l1 := ex_seg [ex_mfhd; Node (bstr "traf") [ex_run o1]] m1 in
  let l2 := ex_seg [ex_mfhd; Node (bstr "traf") [ex_run o2; saio; Leaf (bstr "senc") senc]] m2 in
  let j := ex_seg [ex_mfhd; Node (bstr "traf") [ex_run o1']; Node (bstr "traf") [ex_run o2'; saio; Leaf (bstr "senc") senc]] (m1 ++ m2) in
  boxes_ok moof_nodes any_payload l1 /\ boxes_ok moof_nodes any_payload l2 /\
  mux_media (encs l1) (encs l2) = Ok (encs j) /\
  bslice (12 + so) (12 + so + 4) (encs l2) = senc /\
  bslice (12 + so) (12 + so + 4) (encs j) <> senc.
Proof. exact C39_aux_info_refuted_pf. Qed.
Print Assumptions C39_aux_info_refuted.

(** A first segment without a segment type box cannot be multiplexed. *)
Theorem C39_no_styp_refuted : exists l1 l2,
  boxes_ok moof_nodes any_payload l1 /\ fragment_ok l2 /\
  l1 = skipn 1 (ex_seg [ex_mfhd; Node (bstr "traf") [ex_run 60]] [1; 2; 3; 4]) /\
  mux_media (encs l1) (encs (seg_of l2)) = Err "TypeError".
Proof. exact C39_no_styp_refuted_pf. Qed.
Print Assumptions C39_no_styp_refuted.

(** From two init segments of one track each, the joint one, if its size can be
    written. *)
Theorem C38_joint : forall l1 l2 f m x1 x2 k1 k2,
  boxes_ok init_nodes decodable l1 -> boxes_ok init_nodes decodable l2 ->
  of_type (bstr "ftyp") (init_leaves l1) = [f] -> of_type (bstr "mvhd") (init_leaves l1) = [m] ->
  of_type (bstr "trex") (init_leaves l1) = [x1] -> of_type (bstr "trak") (init_leaves l1) = [k1] ->
  of_type (bstr "trex") (init_leaves l2) = [x2] -> of_type (bstr "trak") (init_leaves l2) = [k2] ->
  blen (encs (joint_init f m x1 x2 k1 k2)) < 4294967296 ->
  mux_inits (encs l1) (encs l2) = Ok (encs (joint_init f m x1 x2 k1 k2)).
Proof. exact C38_joint_pf. Qed.
Print Assumptions C38_joint.

(** Each piece that is missing is an error. *)
Theorem C38_missing : forall l1 l2, boxes_ok init_nodes decodable l1 -> boxes_ok init_nodes decodable l2 ->
  (exists t, In t [bstr "mvhd"; bstr "trex"; bstr "trak"] /\ of_type t (init_leaves l1) = []) \/
  (exists t, In t [bstr "trex"; bstr "trak"] /\ of_type t (init_leaves l2) = []) ->
  mux_inits (encs l1) (encs l2) = Err "TypeError".
Proof. exact C38_missing_pf. Qed.
(* examples meeting the hypotheses: C38_joint_case, C38_missing_case *)
Print Assumptions C38_missing.

(** The joint init segment is not made live: its movie header keeps the
    duration of the VoD file. *)
Theorem C38_live_refuted : exists l1 l2 out, boxes_ok init_nodes decodable l1 /\ boxes_ok init_nodes decodable l2 /\
  mux_inits (encs l1) (encs l2) = Ok out /\ exists m tr,
  out = encs [Leaf (bstr "ftyp") (bstr "iso6"); Node (bstr "moov") (Leaf (bstr "mvhd") m :: tr)] /\ field 16 4 m = 256.
Proof. exact C38_live_refuted_pf. Qed.
Print Assumptions C38_live_refuted.

(** Of several tracks in a file only the last is kept. *)
Theorem C38_all_tracks_refuted : exists l1 l2 k k' x out, boxes_ok init_nodes decodable l1 /\ boxes_ok init_nodes decodable l2 /\
  of_type (bstr "trak") (init_leaves l1) = [k; k'] /\ k <> k' /\
  mux_inits (encs l1) (encs l2) = Ok out /\
  out = encs [Leaf (bstr "ftyp") []; Node (bstr "moov") [Leaf (bstr "mvhd") []; Node (bstr "mvex") [Leaf (bstr "trex") []; Leaf (bstr "trex") []];
        Leaf (bstr "trak") k'; Leaf (bstr "trak") x]].
Proof. exact C38_all_tracks_refuted_pf. Qed.
Print Assumptions C38_all_tracks_refuted.
