(** Property theorems; proofs in MediaTheory.v, where the examples that meet the
    hypotheses stand beside each lemma. Generated by tools/gen_props.py. *)
From Coq Require Import Lqa ZifyBool ZifyNat.
From Verif Require Import Base BaseProofs BytesModel BytesProofs Mp4Model Mp4Proofs Mp4Term BoxSpec EmsgModel TtmlModel
  TimeModel MediaModel MediaSpec MediaProofs MediaProofs2 MediaProofs3 MediaProofs4 MediaProofs5 MediaProofs6
  MediaProofs7 MediaProofs8 ConfigModel ProxyModel ProxySpec ProxyTheory SegmentModel.
From Verif Require Import MediaTheory.
Open Scope Z_scope.

(** ** C10: the timeline is continuous *)
Theorem C10_continuous : forall files c c2 n t1 t2 s1 s2 r rel d1 d2 now1 now2 (L : Z -> list box) (D dur : Z -> Z) o1 o2,
  wf_cfg c -> wf_cfg c2 -> media_request c n -> media_request c2 (n + 1) ->
  c_seg_dur c2 = c_seg_dur c -> c_vod_n c2 = c_vod_n c -> c_vod_first c2 = c_vod_first c ->
  c_ast c2 = c_ast c -> c_timeoffset c2 = c_timeoffset c -> c_start_nr c2 = c_start_nr c -> c_ext c2 = c_ext c ->
  (forall v, c_vod_first c <= v < c_vod_first c + c_vod_n c ->
     files rel v (c_ext c) = Ok (encs (L v)) /\ segment_ok (L v) /\ starts_at (L v) (D v)) ->
  (forall v, c_vod_first c <= v < c_vod_first c + c_vod_n c - 1 -> D (v + 1) = D v + dur v) ->
  D (c_vod_first c + c_vod_n c - 1) + dur (c_vod_first c + c_vod_n c - 1)
    = D (c_vod_first c) + c_seg_dur c * c_vod_n c * rep_timescale r ->
  get_media c t1 = Ok (Serve s1) -> get_media c2 t2 = Ok (Serve s2) ->
  filter_media_segment files c r rel s1 d1 now1 = Ok o1 ->
  filter_media_segment files c2 r rel s2 d2 now2 = Ok o2 ->
  exists l1 l2 T, o1 = encs l1 /\ o2 = encs l2 /\
    boxes_ok containers any_payload l1 /\ boxes_ok containers any_payload l2 /\
    starts_at l1 T /\ starts_at l2 (T + dur (sv_vod s1)).
Proof. exact C10_continuous_pf. Qed.
(* examples meeting the hypotheses: ex_L_ok, ex_wrap, ex_wrap_hyps *)
Print Assumptions C10_continuous.

(** ** C11: fragment numbers *)
Theorem C11_number : forall p n l out st,
  segment_ok l -> mp_seg_nr p = Some n -> media_filter p (encs l) = Ok (out, st) ->
  exists l', out = encs l' /\ boxes_ok containers any_payload l' /\
    Forall2 (fun a b => b = btake 4 a ++ be32 n) (mfhds l) (mfhds l') /\
    (mfhds l <> [] -> 0 <= n < 4294967296).
Proof. exact C11_number_pf. Qed.
Print Assumptions C11_number.

Theorem C11_too_large : forall p n l, segment_ok l -> mp_seg_nr p = Some n -> mfhds l <> [] ->
  ~ (0 <= n < 4294967296) -> exists e, media_filter p (encs l) = Err e /\ e <> "diverges"%string.
Proof. exact C11_too_large_pf. Qed.
(* examples meeting the hypotheses: ex_numbers, ex_too_large *)
Print Assumptions C11_too_large.

(** ** C12: widening *)
Theorem C12_widening : forall p ts pre f m post out st,
  segment_ok (seg pre f m post) -> mp_is_ttml p = false -> mp_timescale p = Some ts -> fr_plain f ->
  media_filter p (encs (seg pre f m post)) = Ok (out, st) ->
  exists A f' B t, out = encs (seg A f' m B) /\ boxes_ok containers any_payload (seg A f' m B) /\
    decode_time (fr_tfdt f) t /\ decode_time (fr_tfdt f') (t + mp_offset p * ts) /\
    (too_wide (mp_offset p * ts) (fr_tfdt f) ->
       blen (fr_tfdt f) = 8 /\ blen (fr_tfdt f') = 12 /\ blen (enc (fr_moof f')) = blen (enc (fr_moof f)) + 4) /\
    (~ too_wide (mp_offset p * ts) (fr_tfdt f) ->
       blen (fr_tfdt f') = blen (fr_tfdt f) /\ blen (enc (fr_moof f')) = blen (enc (fr_moof f))).
Proof. exact C12_widening_pf. Qed.
Print Assumptions C12_widening.

Theorem C12_data_offset_partial : forall p ts pre f m post u vf cnt o rest v out st,
  segment_ok (seg pre f m post) -> mp_is_ttml p = false -> mp_timescale p = Some ts -> fr_plain f ->
  Forall (fun b => ~ moof b) pre \/ too_wide (mp_offset p * ts) (fr_tfdt f) ->
  fr_k2 f = u ++ Leaf (bstr "trun") (vf ++ cnt ++ s32 o ++ rest) :: v ->
  blen vf = 4 -> blen cnt = 4 -> Z.testbit (be_val vf) 0 = true -> -2147483648 <= o < 2147483648 ->
  blen (enc (fr_moof f)) <= o <= blen (enc (fr_moof f)) + 8 + blen m ->
  media_filter p (encs (seg pre f m post)) = Ok (out, st) ->
  exists A f' B u' v' o',
    out = encs (seg A f' m B) /\ boxes_ok containers any_payload (seg A f' m B) /\
    fr_k2 f' = u' ++ Leaf (bstr "trun") (vf ++ cnt ++ s32 o' ++ rest) :: v' /\
    List.length u' = List.length u /\ -2147483648 <= o' < 2147483648 /\
    bslice (blen (encs A) + o') (blen (encs A) + blen (enc (fr_moof f')) + 8 + blen m) out =
    bslice (blen (encs pre) + o) (blen (encs pre) + blen (enc (fr_moof f)) + 8 + blen m) (encs (seg pre f m post)).
Proof. exact C12_data_offset_partial_pf. Qed.
Print Assumptions C12_data_offset_partial.

Theorem C12_saio_partial : forall p ts pre f m post u pl es v out st,
  segment_ok (seg pre f m post) -> mp_is_ttml p = false -> mp_timescale p = Some ts -> fr_plain f ->
  Forall (fun b => ~ moof b) pre \/ too_wide (mp_offset p * ts) (fr_tfdt f) ->
  fr_k2 f = u ++ Leaf (bstr "saio") pl :: v -> saio_entries pl es ->
  media_filter p (encs (seg pre f m post)) = Ok (out, st) ->
  exists A f' B u' pl' es' v',
    out = encs (seg A f' m B) /\ boxes_ok containers any_payload (seg A f' m B) /\
    fr_k2 f' = u' ++ Leaf (bstr "saio") pl' :: v' /\ List.length u' = List.length u /\
    saio_entries pl' es' /\
    Forall2 (fun e e' =>
      (forall x t q y j, fr_k2 f = x ++ Leaf t q :: y -> ~ In t special -> 0 <= j <= 8 + blen q ->
         blen t = 4 -> e = fr_pos f + blen (encs x) + j ->
         bslice (blen (encs A) + e') (blen (encs A) + e' + (8 + blen q - j)) out =
         bslice (blen (encs pre) + e) (blen (encs pre) + e + (8 + blen q - j)) (encs (seg pre f m post))) /\
      (blen (enc (fr_moof f)) <= e <= blen (enc (fr_moof f)) + 8 + blen m ->
         bslice (blen (encs A) + e') (blen (encs A) + blen (enc (fr_moof f')) + 8 + blen m) out =
         bslice (blen (encs pre) + e) (blen (encs pre) + blen (enc (fr_moof f)) + 8 + blen m) (encs (seg pre f m post))))
      es es'.
Proof. exact C12_saio_partial_pf. Qed.
(* examples meeting the hypotheses: ex_widening *)
Print Assumptions C12_saio_partial.

(** Two tracks in one fragment, both widened: the fragment grows by eight bytes
    but every data offset by four. *)
Theorem C12_two_tracks_refuted : exists p m m' d st i o o',
  mp_is_ttml p = false /\ segment_ok [m; Leaf (bstr "mdat") d] /\
  media_filter p (encs [m; Leaf (bstr "mdat") d]) = Ok (encs [m'; Leaf (bstr "mdat") d], st) /\
  boxes_ok containers any_payload [m'; Leaf (bstr "mdat") d] /\
  nth_error (data_offsets m) i = Some o /\ nth_error (data_offsets m') i = Some o' /\
  blen (enc m) + 8 <= o < blen (enc m) + 8 + blen d /\
  bslice o (o + 1) (encs [m; Leaf (bstr "mdat") d]) <> bslice o' (o' + 1) (encs [m'; Leaf (bstr "mdat") d]).
Proof. exact C12_two_tracks_refuted_pf. Qed.
Print Assumptions C12_two_tracks_refuted.

(** Two fragments, the first one widened, the second one already with a 64-bit
    time: the data offset of the second one is moved although nothing grew. *)
Theorem C12_second_fragment_refuted : exists p m1 d1 m2 d2 m1' m2' st o o',
  mp_is_ttml p = false /\ segment_ok [m1; Leaf (bstr "mdat") d1; m2; Leaf (bstr "mdat") d2] /\
  media_filter p (encs [m1; Leaf (bstr "mdat") d1; m2; Leaf (bstr "mdat") d2]) =
    Ok (encs [m1'; Leaf (bstr "mdat") d1; m2'; Leaf (bstr "mdat") d2], st) /\
  boxes_ok containers any_payload [m1'; Leaf (bstr "mdat") d1; m2'; Leaf (bstr "mdat") d2] /\
  data_offsets m2 = [o] /\ data_offsets m2' = [o'] /\
  blen (enc m2) + 8 = o /\ blen (enc m2') = blen (enc m2) /\
  bslice o (o + 1) (encs [m2; Leaf (bstr "mdat") d2]) <> bslice o' (o' + 1) (encs [m2'; Leaf (bstr "mdat") d2]).
Proof. exact C12_second_fragment_refuted_pf. Qed.
Print Assumptions C12_second_fragment_refuted.

(** A trun in front of tfdt is not adjusted. *)
Theorem C12_trun_first_refuted : exists p f f' m st o,
  mp_is_ttml p = false /\ segment_ok (seg [] f m []) /\ fr_plain f /\
  media_filter p (encs (seg [] f m [])) = Ok (encs (seg [] f' m []), st) /\
  boxes_ok containers any_payload (seg [] f' m []) /\
  data_offsets (fr_moof f) = [o] /\ data_offsets (fr_moof f') = [o] /\
  blen (enc (fr_moof f)) + 8 = o /\ blen (enc (fr_moof f')) = blen (enc (fr_moof f)) + 4.
Proof. exact C12_trun_first_refuted_pf. Qed.
Print Assumptions C12_trun_first_refuted.

(** ** C13: well-formed output *)
Theorem C13_well_formed_partial : forall p l out st, segment_ok l -> media_filter p (encs l) = Ok (out, st) ->
  exists l', out = encs l' /\ boxes_ok containers any_payload l'.
Proof. exact C13_well_formed_partial_pf. Qed.
Print Assumptions C13_well_formed_partial.

Theorem C13_odd_styp_refuted : exists p l out st, boxes_ok containers any_payload l /\
  media_filter p (encs l) = Ok (out, st) /\ ~ exists l', out = encs l' /\ boxes_ok containers any_payload l'.
Proof. exact C13_odd_styp_refuted_pf. Qed.
Print Assumptions C13_odd_styp_refuted.

Theorem C13_long_mfhd_refuted : exists p l out st, boxes_ok containers any_payload l /\
  media_filter p (encs l) = Ok (out, st) /\ ~ exists l', out = encs l' /\ boxes_ok containers any_payload l'.
Proof. exact C13_long_mfhd_refuted_pf. Qed.
(* examples meeting the hypotheses: ex_well_formed *)
Print Assumptions C13_long_mfhd_refuted.

(** ** C14: only documented fields change *)
Theorem C14_documented : forall p l out st,
  segment_ok l -> mp_is_ttml p = false -> media_filter p (encs l) = Ok (out, st) ->
  exists ev x l1 l2 d,
    top_changes (mk_request (mp_seg_nr p) (match mp_timescale p with Some ts => mp_offset p * ts | None => 0 end)
                   (mp_lmsg p) None ev) 0 l l1 d /\
    inserted x l1 l2 /\ out = encs l2 /\ boxes_ok containers any_payload l2 /\
    Forall (fun b => btype b = bstr "emsg") ev /\ (mp_scte35 p = 0 -> ev = []) /\
    Forall (fun b => btype b = bstr "emsg" /\ mp_emsg_last p = true \/ btype b = bstr "sidx" /\ mp_insert_sidx p = true) x.
Proof. exact C14_documented_pf. Qed.
Print Assumptions C14_documented.

Theorem C14_copied : forall p l out st,
  segment_ok l -> mp_is_ttml p = false -> media_filter p (encs l) = Ok (out, st) ->
  exists l', out = encs l' /\ boxes_ok containers any_payload l' /\ filter copied l' = filter copied l.
Proof. exact C14_copied_pf. Qed.
(* examples meeting the hypotheses: ex_copied *)
Print Assumptions C14_copied.

(** ** C15: brands *)
Theorem C15_brands : forall p l out st, segment_ok l -> media_filter p (encs l) = Ok (out, st) ->
  exists l', out = encs l' /\ boxes_ok containers any_payload l' /\
    Forall2 (fun a b => forall brands, Forall (fun x : bytes => blen x = 4) brands -> a = List.concat brands ->
                        b = List.concat (brand_list brands (mp_lmsg p))) (styps l) (styps l').
Proof. exact C15_brands_pf. Qed.
Print Assumptions C15_brands.

(** The boxes of a reply are determined by its bytes, so "there are boxes" above
    means the boxes that any reader finds. *)
Theorem C13_unique : forall l1 l2, boxes_ok containers any_payload l1 -> boxes_ok containers any_payload l2 ->
  encs l1 = encs l2 -> l1 = l2.
Proof. exact C13_unique_pf. Qed.
Print Assumptions C13_unique.

(** Filtering twice gives the brands of filtering once with the second flag. *)
Theorem C15_idempotent : forall p q l st l1 l2 st2 l3 st3,
  segment_ok l -> segment_ok l1 -> boxes_ok containers any_payload l2 -> boxes_ok containers any_payload l3 ->
  media_filter p (encs l) = Ok (encs l1, st) ->
  media_filter q (encs l1) = Ok (encs l2, st2) -> media_filter q (encs l) = Ok (encs l3, st3) ->
  styps l2 = styps l3.
Proof. exact C15_idempotent_pf. Qed.
(* examples meeting the hypotheses: ex_brands *)
Print Assumptions C15_idempotent.

(** ** C36: generated sidx *)
Theorem C36_sidx_partial : forall p ts pre f m h r t dd total out st,
  segment_ok (seg pre f m []) -> mp_is_ttml p = false -> mp_timescale p = Some ts -> mp_insert_sidx p = true ->
  Forall (fun b => ~ In (btype b) [bstr "moof"; bstr "mdat"]) pre ->
  one_run f h r -> decode_time (fr_tfdt f) t ->
  tfhd_default (match mp_default_dur p with Some z => z | None => 0 end) h dd -> trun_total dd r total ->
  media_filter p (encs (seg pre f m [])) = Ok (out, st) ->
  exists A f',
    out = encs (A ++ Leaf (bstr "sidx")
                  (sidx_fields ts (t + mp_offset p * ts)
                     (blen (enc (fr_moof f')) + blen (enc (Leaf (bstr "mdat") m))) total)
                :: fr_moof f' :: [Leaf (bstr "mdat") m]) /\
    Forall (fun b => ~ In (btype b) [bstr "moof"; bstr "mdat"]) A /\
    decode_time (fr_tfdt f') (t + mp_offset p * ts) /\
    0 <= ts < 4294967296 /\ blen (enc (fr_moof f')) + blen (enc (Leaf (bstr "mdat") m)) < 4294967296 /\
    0 <= total < 4294967296.
Proof. exact C36_sidx_partial_pf. Qed.
(* examples meeting the hypotheses: ex_sidx *)
Print Assumptions C36_sidx_partial.

(** With two truns only the last one counts. *)
Theorem C36_two_runs_refuted : exists p f f' m st ts ept size dur r1 r2 t1 t2 dd h,
  mp_is_ttml p = false /\ mp_insert_sidx p = true /\ segment_ok (seg [] f m []) /\ fr_plain f /\
  fr_k1 f = [Leaf (bstr "tfhd") h] /\ tfhd_default 0 h dd /\
  fr_k2 f = [Leaf (bstr "trun") r1; Leaf (bstr "trun") r2] /\ trun_total dd r1 t1 /\ trun_total dd r2 t2 /\
  media_filter p (encs (seg [] f m [])) =
    Ok (encs (seg [Leaf (bstr "sidx") (sidx_fields ts ept size dur)] f' m []), st) /\
  0 <= dur < 4294967296 /\ dur <> t1 + t2.
Proof. exact C36_two_runs_refuted_pf. Qed.
Print Assumptions C36_two_runs_refuted.

(** With two fragments the index stands in front of the second one but counts
    the bytes of both. *)
Theorem C36_two_fragments_refuted : exists p m1 d1 m2 d2 m1' m2' st ts ept size dur,
  mp_is_ttml p = false /\ mp_insert_sidx p = true /\
  segment_ok [m1; Leaf (bstr "mdat") d1; m2; Leaf (bstr "mdat") d2] /\
  media_filter p (encs [m1; Leaf (bstr "mdat") d1; m2; Leaf (bstr "mdat") d2]) =
    Ok (encs [m1'; Leaf (bstr "mdat") d1; Leaf (bstr "sidx") (sidx_fields ts ept size dur); m2'; Leaf (bstr "mdat") d2], st) /\
  0 <= size < 4294967296 /\ blen (encs [m2'; Leaf (bstr "mdat") d2]) < size.
Proof. exact C36_two_fragments_refuted_pf. Qed.
Print Assumptions C36_two_fragments_refuted.

(** ** C53: termination *)
Theorem C53_terminates_partial : forall p data, mp_is_ttml p = false -> scan_top tops containers data ->
  (forall fuel, (enough data <= fuel)%nat ->
     mp4_filter (m_class p) fuel data (m_init p None) = media_filter p data) /\
  media_filter p data <> Err "diverges".
Proof. exact C53_terminates_partial_pf. Qed.
Print Assumptions C53_terminates_partial.

Theorem C53_segments : forall p l, segment_ok l -> media_filter p (encs l) <> Err "diverges".
Proof. exact C53_segments_pf. Qed.
Print Assumptions C53_segments.

Theorem C53_mdat_search : forall p data, scan_top [] [] data -> forall fuel, (enough data <= fuel)%nat ->
  mdat_loop p fuel data 0 [] None = mdat_loop p (enough data) data 0 [] None /\
  mdat_loop p fuel data 0 [] None <> Err "diverges".
Proof. exact C53_mdat_search_pf. Qed.
(* examples meeting the hypotheses: ex_scan *)
Print Assumptions C53_mdat_search.

Theorem C53_size_zero_refuted : exists data, forall p fuel st, mp4_filter (m_class p) fuel data st = Err "diverges".
Proof. exact C53_size_zero_refuted_pf. Qed.
Print Assumptions C53_size_zero_refuted.

Theorem C53_mdat_size_zero_refuted : exists data, forall p fuel, mdat_loop p fuel data 0 [] None = Err "diverges".
Proof. exact C53_mdat_size_zero_refuted_pf. Qed.
Print Assumptions C53_mdat_size_zero_refuted.
