(** Property theorems; proofs in Emsg2Theory.v, where the examples that meet the
    hypotheses stand beside each lemma. Generated by tools/gen_props.py. *)
From Coq Require Import ZifyBool ZifyNat.
From Verif Require Import Base BaseProofs BytesModel BytesProofs Mp4Model Mp4Proofs BoxSpec EmsgModel EmsgSpec ConfigModel ProxyModel
  MediaModel MediaSpec MediaProofs MediaProofs2 MediaProofs3 MediaProofs4 MediaProofs5 MediaProofs6 MediaProofs7 MediaProofs8 SegmentModel ProxyTheory MediaTheory EmsgTheory.
From Verif Require Import Emsg2Theory.
Open Scope Z_scope.

(** The segment served is the stored one, changed as documented, with the boxes
    [ev] behind styp.  Only video has any.  Each announces a splice of the
    schedule; when there is none, no warning instant of a splice in the minute of
    the segment is touched. *)
Theorem C34_delivered : forall files c r rel sv dflt now l out,
  files rel (sv_vod sv) (c_ext c) = Ok (encs l) -> segment_ok l -> rep_type r <> "subtitles"%string ->
  filter_media_segment files c r rel sv dflt now = Ok out ->
  let n := c_scte35 c in let d := c_seg_dur c in let k := sv_nr sv in
  exists ev x l1 l2 g,
    top_changes (mk_request (Some k) (sv_offset sv * rep_timescale r) (sv_lmsg sv) None ev) 0 l l1 g /\
    inserted x l1 l2 /\ out = encs l2 /\
    (sv_emsg sv = false -> Forall (fun b => btype b = bstr "sidx") x) /\
    (rep_type r <> "video"%string -> ev = []) /\
    (ev = [] \/ exists t, ev = [splice_box n (k * d) t] /\ splice n t /\ 0 <= t /\ (touches d k (t - 6) \/ touches d k (t - 8))) /\
    (rep_type r = "video"%string -> 1 <= n <= 8 -> d <= 100 ->
       forall t, splice n t -> 0 <= t -> t / 10 < 4294967296 -> t / 60 = k * d / 60 ->
       touches d k (t - 6) \/ touches d k (t - 8) -> ev <> []).
Proof. exact C34_delivered_pf. Qed.
(* examples meeting the hypotheses: C34_delivered_case *)
Print Assumptions C34_delivered.
