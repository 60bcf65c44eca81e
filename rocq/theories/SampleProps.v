(** Property theorems; proofs in SampleTheory.v, where the examples that meet the
    hypotheses stand beside each lemma. Generated by tools/gen_props.py. *)
From Coq Require Import Lqa ZifyBool ZifyNat.
From Verif Require Import Base BaseProofs BytesModel BytesProofs StrModel BoxSpec Mp4Model Mp4Proofs ConfigModel ConfigProofs
  ProxyModel ProxySpec ProxyProofs ProxyTheory Proxy2Theory ConfigTheory TimeModel TimeSpec TimeProofs TimeTheory
  EmsgModel EmsgSpec EmsgTheory MediaModel MediaProofs MediaProofs2 MediaTheory SegmentModel Emsg2Theory
  InitModel InitSpec InitTheory HttpModel HttpSpec HttpProofs HttpTheory ChunkModel EndSpec EndTheory
  Mpd2Spec Mpd2Proofs MediaSpec ChunkSpec ChunkTheory SampleSpec SampleProofs.
From Verif Require Import SampleTheory.
Local Open Scope string_scope.
Open Scope Z_scope.

(** The reply to a media request of one representation is refused, or it has
    number [n] and exactly the samples of the stored segment of the loop, later
    by the loops that went by. *)
Theorem C84_samples_partial : forall limit s r now sid history c rep n down f d nr track samples rp,
  admitted limit r now -> hr_range r = None -> site_ok s -> (0 <= now)%Q ->
  provider_config s r now = Ok c -> c_ext c = ".m4s" -> not_chunked c -> request_nr c = Ok n ->
  c_reps c = [rep] -> rep_type rep <> "subtitles" -> going_down c (py_int_of_Q now) down ->
  st_files s (c_content_name c) (c_rel_path c) (source_file c n) ".m4s" = Ok (encs (f_boxes f)) -> segment_ok (f_boxes f) ->
  fragment_is f d (encs (f_boxes f)) nr track samples -> media_follows d f -> 0 <= td_size d ->
  fst (application limit s r now sid (HttpModel.run limit s history [])) = Ok rp ->
  rp_status rp = 404 \/
  rp_status rp = 200 /\ available c n now /\
  exists out, rp_body rp = [encs out] /\ sent c rep n (py_int_of_Q now) down (f_boxes f) out /\
    fragment_says d (encs out) n track (map (later (shift c n * rep_timescale rep)) samples).
Proof. exact C84_samples_partial_pf. Qed.
Print Assumptions C84_samples_partial.

(** With chunks of [D] ticks asked for (chunkdur), the body is a list of
    fragments, each readable on its own, with the samples of the reply above cut
    at the multiples of [D]. *)
Theorem C84_chunks_partial : forall limit s r now sid history c q D rep n down f d nr track samples li tk md hd tx rp,
  admitted limit r now -> hr_range r = None -> site_ok s -> (0 <= now)%Q ->
  provider_config s r now = Ok c -> c_ext c = ".m4s" -> request_nr c = Ok n ->
  c_chunkdur c = Some q -> 0 < D -> (inject_Z D <= q * inject_Z (rep_timescale rep) < inject_Z (D + 1))%Q -> (0 < q)%Q ->
  c_reps c = [rep] -> rep_type rep <> "subtitles" -> going_down c (py_int_of_Q now) down ->
  st_inits s (c_content_name c) (c_rel_path c) "init.mp4" = Ok (encs li) -> boxes_ok movie_containers reader_ok li ->
  of_type (bstr "tkhd") (movie_leaves li) = [tk] -> of_type (bstr "mdhd") (movie_leaves li) = [md] ->
  of_type (bstr "hdlr") (movie_leaves li) = [hd] -> of_type (bstr "trex") (movie_leaves li) = [tx] ->
  d = mk_defaults (field 12 4 tx) (field 16 4 tx) (field 20 4 tx) -> 0 <= td_dur d < 4294967296 -> 0 <= td_size d < 4294967296 ->
  st_files s (c_content_name c) (c_rel_path c) (source_file c n) ".m4s" = Ok (encs (f_boxes f)) -> segment_ok (f_boxes f) ->
  fragment_is f d (encs (f_boxes f)) nr track samples -> media_follows d f ->
  let sent_samples := map (later (shift c n * rep_timescale rep)) samples in
  Forall (fun m => 0 <= ms_cto m < 2147483648) samples -> Forall (fun m => ms_time m < 18446744073709551616) sent_samples ->
  Z.of_nat (List.length samples) < 134000000 ->
  fst (application limit s r now sid (HttpModel.run limit s history [])) = Ok rp ->
  rp_status rp = 404 \/
  rp_status rp = 200 /\ available c n now /\
  exists out, sent c rep n (py_int_of_Q now) down (f_boxes f) out /\
    fragment_says d (encs out) n track sent_samples /\
    (8 + blen (encs out) < 4294967296 ->
     exists parts, chunking ms_dur D sent_samples parts /\
       Forall2 (fun ch part => forall d', exists l, fragment_says d' ch n track l /\ Forall2 same_sample l part) (rp_body rp) parts).
Proof. exact C84_chunks_partial_pf. Qed.
Print Assumptions C84_chunks_partial.

(** Segment n of a plain URL is refused or has the samples of stored segment
    n mod N.  If the stored segments follow each other without gap and last as
    long as the loop says, then so do the segments on air, for ever: segment n
    ends where segment n+1 starts, also when the loop starts over. *)
Theorem C84_default_url_partial : forall limit s r now sid history first name rp ct m v n fs d track nrs samples T reply,
  admitted limit r now -> hr_range r = None -> site_ok s -> (0 <= now)%Q ->
  hr_path r = "/" ++ first ++ "/" ++ name ++ "/" ++ rp ++ "/" ++ print_Z n ++ ".m4s" ->
  no_slash first -> no_slash name -> no_slash rp -> plain_name name -> split_dunder rp = [rp] ->
  st_vod s name = Ok v -> content_type_for_rep (v_media v) rp = Some (ct, m) -> ct <> "subtitles" -> 0 <= n ->
  let N := v_n v in let L := N * v_dur v * m_timescale m in
  (forall k, 0 <= k < N -> st_files s name rp (v_first v + k) ".m4s" = Ok (encs (f_boxes (fs k))) /\ segment_ok (f_boxes (fs k)) /\
     fragment_is (fs k) d (encs (f_boxes (fs k))) (nrs k) track (samples k) /\ media_follows d (fs k) /\ plays (T k) (T (k + 1)) (samples k)) ->
  T N = T 0 + L -> 0 <= td_size d ->
  fst (application limit s r now sid (HttpModel.run limit s history [])) = Ok reply ->
  rp_status reply = 404 \/
  rp_status reply = 200 /\ exists out l, rp_body reply = [encs out] /\ fragment_says d (encs out) n track l /\
    map ms_data l = map ms_data (samples (n mod N)) /\
    plays (on_air T N L n) (on_air T N L (n + 1)) l.
Proof. exact C84_default_url_partial_pf. Qed.
(* examples meeting the hypotheses: C84_samples_case, C84_chunks_case, C84_default_url_case *)
Print Assumptions C84_default_url_partial.

Theorem C84_between_refuted : exists s r now rp f d samples l,
  site_ok s /\ admitted 0 r now /\ hr_range r = None /\ (forall n, st_files s "two" "V1" n ".m4s" = Ok (encs (f_boxes f))) /\
  segment_ok (f_boxes f) /\ fragment_is f d (encs (f_boxes f)) 7 1 samples /\
  fst (application 0 s r now "" []) = Ok rp /\ rp_status rp = 200 /\
  exists out, rp_body rp = [out] /\ fragment_says d out 0 1 l /\
    map ms_data samples = [[31; 32]; [41; 42; 43]] /\ map ms_data l = [[49; 50]; [51; 52; 53]].
Proof. exact C84_between_refuted_pf. Qed.
Print Assumptions C84_between_refuted.

Theorem C84_base_offset_refuted : exists s r now c rp f d samples,
  site_ok s /\ admitted 0 r now /\ hr_range r = None /\ provider_config s r now = Ok c /\ request_nr c = Ok 0 /\ available c 0 now /\
  (forall n, st_files s "two" "V1" n ".m4s" = Ok (encs (f_boxes f))) /\
  segment_ok (f_boxes f) /\ fragment_is f d (encs (f_boxes f)) 7 1 samples /\ map ms_data samples = [[31; 32]; [41; 42; 43]] /\
  fst (application 0 s r now "" []) = Ok rp /\ rp_status rp = 404.
Proof. exact C84_base_offset_refuted_pf. Qed.
Print Assumptions C84_base_offset_refuted.

(** Chunks of less than a tick: every segment is refused though the same without
    chunks is delivered. *)
Theorem C84_tick_refuted : exists s r r' now rp rp',
  hr_path r = "/livesim/chunkdur_0.00001/two/V1/5.m4s" /\ hr_path r' = "/livesim/chunkdur_2.5/two/V1/5.m4s" /\
  fst (application 0 s r now "" []) = Ok rp /\ rp_status rp = 404 /\
  fst (application 0 s r' now "" []) = Ok rp' /\ rp_status rp' = 200.
Proof. exact C84_tick_refuted_pf. Qed.
Print Assumptions C84_tick_refuted.
