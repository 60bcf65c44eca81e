(** Property theorems; proofs in LangTheory.v, where the examples that meet the
    hypotheses stand beside each lemma. Generated by tools/gen_props.py. *)
From Coq Require Import ZifyBool ZifyNat.
From Verif Require Import Base BaseProofs BytesModel BoxSpec BytesProofs Mp4Model InitModel ChunkModel LangModel LangSpec.
From Verif Require Import LangTheory.
Open Scope Z_scope.

(** C52: a language code written by MDHDBox is read back by mdhd_box, wherever
    in the file the box is; the time scale and the duration too. *)
Theorem C52_boxes : forall timescale duration lang pre post,
  language_code lang -> 0 <= timescale < 4294967296 -> 0 <= duration < 4294967296 ->
  exists box, mdhd_bytes timescale duration lang = Ok box /\ media_header box /\
    mdhd_at (pre ++ box ++ post) (blen pre) (blen box) = Ok (mk_mdhd 0 0 timescale duration lang).
Proof. exact C52_boxes_pf. Qed.
Print Assumptions C52_boxes.

(** Any other text: read back unchanged when it is three characters that fit in
    five bits, else "und". *)
Theorem C52_any_text : forall timescale duration lang pre post,
  exists box m, mdhd_bytes timescale duration lang = Ok box /\
    mdhd_at (pre ++ box ++ post) (blen pre) (blen box) = Ok m /\
    (five_bit_code lang -> md_language m = lang) /\ (~ five_bit_code lang -> md_language m = "und"%string).
Proof. exact C52_any_text_pf. Qed.
Print Assumptions C52_any_text.

Theorem C52_stpp : forall lang timescale created box pre post,
  language_code lang -> media_header box -> 0 <= timescale < 4294967296 ->
  (forall v, nth_error box 8 = Some v -> fits v created) ->
  exists out m, stpp_mdhd lang timescale created box = Ok out /\ blen out = blen box /\ btake 12 out = btake 12 box /\
    mdhd_at (pre ++ out ++ post) (blen pre) (blen out) = Ok m /\
    md_language m = lang /\ md_timescale m = timescale /\ md_duration m = 0.
Proof. exact C52_stpp_pf. Qed.
Print Assumptions C52_stpp.

(** The live init filter zeroes the duration of a header and keeps the rest:
    the language read from it is the same. *)
Theorem C52_live : forall box st pre post m, bytes_ok box -> media_header box ->
  mdhd_at (pre ++ box ++ post) (blen pre) (blen box) = Ok m ->
  exists out, l_mdhd box st = Ok (out, st) /\ blen out = blen box /\
    mdhd_at (pre ++ out ++ post) (blen pre) (blen out) =
      Ok (mk_mdhd (md_created m) (md_modified m) (md_timescale m) 0 (md_language m)).
Proof. exact C52_live_pf. Qed.
Print Assumptions C52_live.

(** Finding: with the templates as str literals, Python 3 cannot unpack them, so
    neither creator ever produces a segment. *)
Theorem C52_creators_fail : forall more rest,
  create_init_segment more rest = Err "TypeError" /\ create_media_segment more rest = Err "TypeError".
Proof. exact C52_creators_fail_pf. Qed.
(* examples meeting the hypotheses: ex_C52_boxes, ex_C52_any, ex_C52_stpp, ex_C52_live *)
Print Assumptions C52_creators_fail.
