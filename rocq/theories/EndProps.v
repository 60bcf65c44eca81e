(** Property theorems; proofs in EndTheory.v, where the examples that meet the
    hypotheses stand beside each lemma. Generated by tools/gen_props.py. *)
From Coq Require Import Lqa ZifyBool ZifyNat.
From Verif Require Import Base BaseProofs BytesModel BytesProofs StrModel BoxSpec Mp4Model Mp4Proofs ConfigModel ConfigProofs
  ProxyModel ProxySpec ProxyProofs ProxyTheory Proxy2Theory ConfigTheory TimeModel TimeSpec TimeProofs TimeTheory
  EmsgModel EmsgSpec EmsgTheory MediaModel MediaSpec MediaProofs MediaProofs2 MediaTheory SegmentModel Emsg2Theory
  MuxModel MuxSpec MuxTheory HttpModel HttpSpec HttpProofs HttpTheory Mpd2Spec Mpd2Proofs EndSpec.
From Verif Require Import EndTheory.
Local Open Scope string_scope.
Open Scope Z_scope.

(** One representation: refused with a text, or the stored segment of the loop,
    sent as segment [n] inside its window. *)
Theorem C67_single : forall limit s r now sid history c rep n down l rp,
  admitted limit r now -> hr_range r = None -> site_ok s -> (0 <= now)%Q ->
  provider_config s r now = Ok c -> c_ext c = ".m4s" -> not_chunked c -> request_nr c = Ok n ->
  c_reps c = [rep] -> rep_type rep <> "subtitles" -> going_down c (py_int_of_Q now) down ->
  st_files s (c_content_name c) (c_rel_path c) (source_file c n) ".m4s" = Ok (encs l) -> segment_ok l ->
  fst (application limit s r now sid (run limit s history [])) = Ok rp ->
  rp_status rp = 404 \/
  rp_status rp = 200 /\ ProxySpec.session_started c now /\ session_not_over c now /\ available c n now /\
  exists out, rp_body rp = [encs out] /\ sent c rep n (py_int_of_Q now) down l out.
Proof. exact C67_single_pf. Qed.
Print Assumptions C67_single.

(** Two representations: both segments are sent as above, and put together. *)
Theorem C67_muxed : forall limit s r now sid history c rep1 rep2 dir1 dir2 n down l1 l2 rp,
  admitted limit r now -> hr_range r = None -> site_ok s -> (0 <= now)%Q ->
  provider_config s r now = Ok c -> c_ext c = ".m4s" -> not_chunked c -> request_nr c = Ok n ->
  c_reps c = [rep1; rep2] -> rep_type rep1 <> "subtitles" -> rep_type rep2 <> "subtitles" ->
  going_down c (py_int_of_Q now) down ->
  beside (c_rel_path c) (rep_id rep1) dir1 -> beside (c_rel_path c) (rep_id rep2) dir2 ->
  st_files s (c_content_name c) dir1 (source_file c n) ".m4s" = Ok (encs l1) -> segment_ok l1 ->
  st_files s (c_content_name c) dir2 (source_file c n) ".m4s" = Ok (encs l2) -> segment_ok l2 ->
  fst (application limit s r now sid (run limit s history [])) = Ok rp ->
  rp_status rp = 404 \/
  rp_status rp = 200 /\ ProxySpec.session_started c now /\ session_not_over c now /\ available c n now /\
  exists out1 out2,
    sent c rep1 n (py_int_of_Q now) down l1 out1 /\ sent c rep2 n (py_int_of_Q now) down l2 out2 /\
    forall a b, out1 = seg_of a -> out2 = seg_of b -> fragment_ok a -> fragment_ok b ->
      blen (fr_mfhd a) = blen (fr_mfhd b) -> blen (encs out1) + blen (encs out2) < 4294967296 ->
      designates_media a 0 -> designates_media b 0 ->
      exists o1 o2, rp_body rp = [encs (joint a b o1 o2)] /\
        (forall k, designates_media a k ->
           bslice (joint_moof_at a + o1) (joint_moof_at a + o1 + k) (encs (joint a b o1 o2)) =
           bslice (moof_at a + fr_offset a) (moof_at a + fr_offset a + k) (encs out1)) /\
        (forall k, designates_media b k ->
           bslice (joint_moof_at a + o2) (joint_moof_at a + o2 + k) (encs (joint a b o1 o2)) =
           bslice (moof_at b + fr_offset b) (moof_at b + fr_offset b + k) (encs out2)).
Proof. exact C67_muxed_pf. Qed.
Print Assumptions C67_muxed.

(** Segment [n] of duration d is delivered from (n+1)d to (n+2)d plus the
    time-shift depth, and it is stored segment n mod N of the loop, n/N loops
    later. *)
Theorem C67_default_url : forall limit s r now sid history first name rp ct m v n reply,
  admitted limit r now -> hr_range r = None -> site_ok s -> (0 <= now)%Q ->
  hr_path r = "/" ++ first ++ "/" ++ name ++ "/" ++ rp ++ "/" ++ print_Z n ++ ".m4s" ->
  no_slash first -> no_slash name -> no_slash rp -> plain_name name -> split_dunder rp = [rp] ->
  st_vod s name = Ok v -> content_type_for_rep (v_media v) rp = Some (ct, m) -> ct <> "subtitles" -> 0 <= n ->
  fst (application limit s r now sid (run limit s history [])) = Ok reply ->
  let d := v_dur v in let N := v_n v in
  (~ (inject_Z ((n + 1) * d) <= now <= inject_Z ((n + 2) * d + v_tsbd v))%Q -> rp_status reply = 404) /\
  forall l, st_files s name rp (v_first v + n mod N) ".m4s" = Ok (encs l) -> segment_ok l ->
    rp_status reply = 404 \/
    rp_status reply = 200 /\
    exists out g, rp_body reply = [encs out] /\
      top_changes (MediaSpec.mk_request (Some n) (n / N * (N * d) * m_timescale m) false None []) 0 l out g.
Proof. exact C67_default_url_pf. Qed.
(* examples meeting the hypotheses: C67_single_case, C67_muxed_case, C67_default_case *)
Print Assumptions C67_default_url.
