(** Property theorems; proofs in InitTheory.v, where the examples that meet the
    hypotheses stand beside each lemma. Generated by tools/gen_props.py. *)
From Coq Require Import ZifyBool ZifyNat.
From Verif Require Import Base BaseProofs BytesModel BytesProofs BoxSpec Mp4Model Mp4Proofs InitModel InitSpec InitProofs MediaProofs MediaProofs2.
From Verif Require Import InitTheory.
Open Scope Z_scope.

(** The live init segment exists, is the VoD one with zero durations in movie,
    track and media headers and every other byte unchanged, and is as long. *)
Theorem C37_live : forall l, boxes_ok movie_containers header_ok l ->
  exists m, init_live (encs l) = Ok (encs m) /\ live_init l m /\ blen (encs m) = blen (encs l).
Proof. exact C37_live_pf. Qed.
Print Assumptions C37_live.

(** "Zero durations, all else unchanged" leaves one possibility only. *)
Theorem C37_determined : forall l m m', boxes_ok movie_containers header_ok l -> live_init l m -> live_init l m' -> m = m'.
Proof. exact C37_determined_pf. Qed.
Print Assumptions C37_determined.

(** A live init segment is left alone. *)
Theorem C37_idempotent : forall l b, boxes_ok movie_containers header_ok l -> init_live (encs l) = Ok b -> init_live b = Ok b.
Proof. exact C37_idempotent_pf. Qed.
(* examples meeting the hypotheses: C37_case *)
Print Assumptions C37_idempotent.

(** Reading an init segment with one track: the track id, the handler, the
    sample defaults and (version 0 media header) the time scale, and the bytes
    are left alone. *)
Theorem C61_one_track : forall l tk md hd tx, boxes_ok movie_containers reader_ok l ->
  of_type (bstr "tkhd") (movie_leaves l) = [tk] -> of_type (bstr "mdhd") (movie_leaves l) = [md] ->
  of_type (bstr "hdlr") (movie_leaves l) = [hd] -> of_type (bstr "trex") (movie_leaves l) = [tx] ->
  exists st, init_filter (encs l) = Ok (encs l, st) /\
    is_track_id st = Some (track_id tk) /\
    (version1 md = false -> is_timescale st = media_timescale md) /\
    is_handler st = Some (bslice 8 12 hd) /\
    is_trex st = Some (field 8 4 tx, field 12 4 tx, field 16 4 tx, field 20 4 tx).
Proof. exact C61_one_track_pf. Qed.
(* examples meeting the hypotheses: C61_one_track_case *)
Print Assumptions C61_one_track.

(** Several tracks are refused. *)
Theorem C61_several : forall l, boxes_ok movie_containers reader_ok l ->
  (2 <= List.length (of_type (bstr "tkhd") (movie_leaves l)))%nat -> init_filter (encs l) = Err "AssertionError".
Proof. exact C61_several_pf. Qed.
(* examples meeting the hypotheses: C61_several_case *)
Print Assumptions C61_several.

Theorem C61_long_header_refuted : exists l md st, boxes_ok movie_containers reader_ok l /\
  of_type (bstr "mdhd") (movie_leaves l) = [md] /\
  init_filter (encs l) = Ok (encs l, st) /\ media_timescale md = 90000 /\ is_timescale st = 0.
Proof. exact C61_long_header_refuted_pf. Qed.
Print Assumptions C61_long_header_refuted.
