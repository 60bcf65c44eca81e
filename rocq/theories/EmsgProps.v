(** Property theorems; proofs in EmsgTheory.v, where the examples that meet the
    hypotheses stand beside each lemma. Generated by tools/gen_props.py. *)
From Coq Require Import ZifyBool ZifyNat.
From Verif Require Import Base BaseProofs BytesModel BytesProofs BoxSpec Mp4Model Mp4Proofs EmsgModel EmsgSpec EmsgReadModel
  MediaProofs MediaProofs2 MediaProofs3.
From Verif Require Import EmsgTheory.
Open Scope Z_scope.

(** What a message is: it announces a splice of the schedule, the segment touches
    an instant 6 s or 8 s before it, begins between 6 s and its duration plus
    8 s ahead, and the box has the stated content. *)
Theorem C34_message : forall n k d b, create_scte35box n (Some k) d = Ok b -> b <> [] ->
  exists t, splice n t /\ 0 <= t /\ (touches d k (t - 6) \/ touches d k (t - 8)) /\
    6 <= t - k * d <= d + 8 /\ b = enc (splice_box n (k * d) t).
Proof. exact C34_message_pf. Qed.
(* examples meeting the hypotheses: C34_message_case *)
Print Assumptions C34_message.

(** A segment touching no warning instant carries no message, and neither does
    any segment when the option is out of range. *)
Theorem C34_silent : forall n k d, (forall t, splice n t -> 0 <= t -> ~ touches d k (t - 6) /\ ~ touches d k (t - 8)) ->
  create_scte35box n (Some k) d = Ok [].
Proof. exact C34_silent_pf. Qed.
(* examples meeting the hypotheses: C34_silent_case *)
Print Assumptions C34_silent.

Theorem C34_off : forall n k d, n < 1 \/ 8 < n -> create_scte35box n k d = Ok [].
Proof. exact C34_off_pf. Qed.
(* examples meeting the hypotheses: C34_off_case *)
Print Assumptions C34_off.

(** Every splice is announced, 6 s or more ahead, for the listed segment durations. *)
Theorem C34_announced_partial : forall n d t, 1 <= n <= 8 -> In d [1; 2; 3; 4; 5; 6; 8; 10; 12] ->
  splice n t -> 0 <= t -> t / 10 < 4294967296 ->
  exists k, 0 <= k /\ t - 8 - d <= k * d <= t - 6 /\
    create_scte35box n (Some k) d = Ok (enc (splice_box n (k * d) t)).
Proof. exact C34_announced_partial_pf. Qed.
(* examples meeting the hypotheses: C34_announced_case *)
Print Assumptions C34_announced_partial.

(** With one ad per minute every duration dividing the minute works. *)
Theorem C34_announced_single_partial : forall n d t, 1 <= n <= 8 -> n <> 2 -> n <> 3 -> n <> 8 -> 0 < d -> 60 mod d = 0 ->
  splice n t -> 0 <= t -> t / 10 < 4294967296 ->
  exists k, 0 <= k /\ t - 8 - d <= k * d <= t - 6 /\
    create_scte35box n (Some k) d = Ok (enc (splice_box n (k * d) t)).
Proof. exact C34_announced_single_partial_pf. Qed.
(* examples meeting the hypotheses: C34_announced_single_case *)
Print Assumptions C34_announced_single_partial.

(** The event id written in the message determines the splice. *)
Theorem C34_ids : forall n t u, splice n t -> splice n u -> t / 10 = u / 10 -> t = u.
Proof. exact C34_ids_pf. Qed.
(* examples meeting the hypotheses: C34_ids_case *)
Print Assumptions C34_ids.

(** Segment durations for which a splice is never announced: 7 s (the segment
    with the warning instants starts in the previous minute) and 15 s with
    three ads (the segment announces the earlier ad). *)
Theorem C34_seven_seconds_refuted : exists n d t, 1 <= n <= 8 /\ 0 < d /\ splice n t /\ 0 <= t /\
  forall k, t - 8 - d <= k * d <= t - 6 -> create_scte35box n (Some k) d <> Ok (enc (splice_box n (k * d) t)).
Proof. exact C34_seven_seconds_refuted_pf. Qed.
Print Assumptions C34_seven_seconds_refuted.

Theorem C34_fifteen_seconds_refuted : exists n d t, 1 <= n <= 8 /\ 0 < d /\ 60 mod d = 0 /\ splice n t /\ 0 <= t /\
  forall k, t - 8 - d <= k * d <= t - 6 -> create_scte35box n (Some k) d <> Ok (enc (splice_box n (k * d) t)).
Proof. exact C34_fifteen_seconds_refuted_pf. Qed.
Print Assumptions C34_fifteen_seconds_refuted.

(** The documentation and the docstring promise ads at 10, 30 and 50 seconds
    for three ads per minute; the ones at 30 and 50 are never announced. *)
Theorem C34_documented_three_refuted : exists t u, documented_splice 3 t /\ documented_splice 3 u /\ t <> u /\ 0 <= t /\ 0 <= u /\
  forall k d, 0 < d <= 1000 ->
   (t - 8 - d <= k * d <= t - 6 -> create_scte35box 3 (Some k) d <> Ok (enc (splice_box 3 (k * d) t))) /\
   (u - 8 - d <= k * d <= u - 6 -> create_scte35box 3 (Some k) d <> Ok (enc (splice_box 3 (k * d) u))).
Proof. exact C34_documented_three_refuted_pf. Qed.
Print Assumptions C34_documented_three_refuted.

(** For ASCII texts and 32-bit fields the box is produced, its declared size is
    its length, and the reader gets every field back. *)
Theorem C35_round_trip_partial : forall scheme value ts delta d mid data,
  plain_text scheme -> plain_text value -> plain_text data -> no_nul scheme -> no_nul value ->
  0 <= ts < 4294967296 -> 0 <= delta < 4294967296 -> 0 <= d < 4294967296 -> 0 <= mid < 4294967296 ->
  30 + blen (bstr scheme) + blen (bstr value) + blen (bstr data) < 4294967296 ->
  exists b, emsg_box (mk_emsg scheme value ts delta d mid data) = Ok b /\
    btake 4 b = be32 (blen b) /\ bslice 4 8 b = bstr "emsg" /\
    read_emsg b = Ok (mk_emsg_read 0 scheme value ts delta d mid (bstr data)).
Proof. exact C35_round_trip_partial_pf. Qed.
(* examples meeting the hypotheses: C35_round_trip_case *)
Print Assumptions C35_round_trip_partial.

(** A field outside 32 bits is an error, never a wrong box. *)
Theorem C35_range : forall scheme value ts delta d mid data b,
  emsg_box (mk_emsg scheme value ts delta d mid data) = Ok b ->
  0 <= ts < 4294967296 /\ 0 <= delta < 4294967296 /\ 0 <= d < 4294967296 /\ 0 <= mid < 4294967296.
Proof. exact C35_range_pf. Qed.
(* examples meeting the hypotheses: C35_range_case *)
Print Assumptions C35_range.

Theorem C35_out_of_range : forall scheme value ts delta d mid data, delta < 0 \/ 4294967296 <= delta ->
  emsg_box (mk_emsg scheme value ts delta d mid data) = Err "struct.error".
Proof. exact C35_out_of_range_pf. Qed.
(* examples meeting the hypotheses: C35_out_of_range_case *)
Print Assumptions C35_out_of_range.

(** With a character outside ASCII the declared size is too small. *)
Theorem C35_non_ascii_refuted : exists e b, emsg_box e = Ok b /\ be_val (btake 4 b) < blen b.
Proof. exact C35_non_ascii_refuted_pf. Qed.
Print Assumptions C35_non_ascii_refuted.

(** A NUL character inside a text field is not refused, and the reader gets
    other fields back. *)
Theorem C35_nul_refuted : exists e b, emsg_box e = Ok b /\ plain_text (em_scheme e) /\
  exists r, read_emsg b = Ok r /\ er_scheme r <> em_scheme e.
Proof. exact C35_nul_refuted_pf. Qed.
Print Assumptions C35_nul_refuted.
