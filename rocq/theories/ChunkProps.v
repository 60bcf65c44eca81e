(** Property theorems; proofs in ChunkTheory.v, where the examples that meet the
    hypotheses stand beside each lemma. Generated by tools/gen_props.py. *)
From Coq Require Import Lqa ZifyBool ZifyNat.
From Verif Require Import Base BaseProofs BytesModel BytesProofs BoxSpec Mp4Proofs ConfigModel ProxyModel ProxySpec ProxyProofs ProxyTheory.
From Verif Require Import ChunkModel ChunkSpec ChunkProofs ChunkParse ChunkDecode ChunkWrite ChunkAll.
From Verif Require MediaSpec.
From Verif Require Import ChunkTheory.
Open Scope Z_scope.

(** *** C40 *)
Theorem C40_chunking : forall samples d, 0 < d -> chunking s_dur d samples (partition samples d).
Proof. exact C40_chunking_pf. Qed.
(* examples meeting the hypotheses: ex_chunking *)
Print Assumptions C40_chunking.

(** A chunk duration that rounds to 0 ticks gives an empty chunk, and an error. *)
Theorem C40_zero : forall samples nr track, samples <> [] -> encode_parts nr track (partition samples 0) = Err "IndexError".
Proof. exact C40_zero_pf. Qed.
(* examples meeting the hypotheses: ex_zero *)
Print Assumptions C40_zero.

(** *** C41 *)
Theorem C41_chunks_partial : forall d file nr track samples i duration,
  fragment_says d file nr track samples -> 0 < duration ->
  0 <= td_dur d < 4294967296 -> 0 <= td_size d < 4294967296 ->
  Forall (fun m => 0 <= ms_cto m < 2147483648) samples -> Forall (fun m => ms_time m < 18446744073709551616) samples ->
  Z.of_nat (List.length samples) < 134000000 -> 8 + blen file < 4294967296 ->
  exists chunks parts, chunk_segment file duration (Some (i, td_dur d, td_size d, td_flags d)) = Ok chunks /\
    chunking ms_dur duration samples parts /\
    Forall2 (fun c part => forall d', exists l, fragment_says d' c nr track l /\ Forall2 same_sample l part) chunks parts.
Proof. exact C41_chunks_partial_pf. Qed.
(* examples meeting the hypotheses: ex_chunks_hyps, ex_chunks *)
Print Assumptions C41_chunks_partial.

Theorem C41_negative_offset_refuted : exists d file c l,
  fragment_says d file 7 1 l /\ chunk_segment file 5000 (Some (1, td_dur d, td_size d, td_flags d)) = Ok [c] /\
  map ms_cto l = [-1; 3] /\
  (forall d', exists l', fragment_says d' c 7 1 l' /\ map ms_cto l' = [4294967295; 3]).
Proof. exact C41_negative_offset_refuted_pf. Qed.
Print Assumptions C41_negative_offset_refuted.

Theorem C42_flags_partial : forall f d file nr track samples i duration,
  fragment_is f d file nr track samples -> 0 < duration ->
  0 <= td_dur d < 4294967296 -> 0 <= td_size d < 4294967296 ->
  Forall (fun m => 0 <= ms_cto m < 2147483648) samples -> Forall (fun m => ms_time m < 18446744073709551616) samples ->
  Z.of_nat (List.length samples) < 134000000 -> 8 + blen file < 4294967296 ->
  exists chunks parts, chunk_segment file duration (Some (i, td_dur d, td_size d, td_flags d)) = Ok chunks /\
    chunking ms_dur duration samples parts /\
    Forall2 (fun c part => forall d', exists l, fragment_says d' c nr track l /\ Forall2 same_sample l part /\
      Forall (fun m => is_sync m <-> flagged f d) l) chunks parts.
Proof. exact C42_flags_partial_pf. Qed.
(* examples meeting the hypotheses: ex_flags *)
Print Assumptions C42_flags_partial.

(** So the information survives when every sample of the segment is a sync
    sample and [flagged]. *)
Theorem C42_all_sync_partial : forall f d file nr track samples i duration,
  fragment_is f d file nr track samples -> flagged f d -> Forall is_sync samples -> 0 < duration ->
  0 <= td_dur d < 4294967296 -> 0 <= td_size d < 4294967296 ->
  Forall (fun m => 0 <= ms_cto m < 2147483648) samples -> Forall (fun m => ms_time m < 18446744073709551616) samples ->
  Z.of_nat (List.length samples) < 134000000 -> 8 + blen file < 4294967296 ->
  exists chunks parts, chunk_segment file duration (Some (i, td_dur d, td_size d, td_flags d)) = Ok chunks /\
    chunking ms_dur duration samples parts /\
    Forall2 (fun c part => forall d', exists l, fragment_says d' c nr track l /\
      Forall2 (fun a b => same_sample a b /\ (is_sync a <-> is_sync b)) l part) chunks parts.
Proof. exact C42_all_sync_partial_pf. Qed.
(* examples meeting the hypotheses: ex_all_sync *)
Print Assumptions C42_all_sync_partial.

(** In general it does not. *)
Theorem C42_non_sync_refuted : exists d file c l,
  fragment_says d file 7 1 l /\ chunk_segment file 5000 (Some (1, td_dur d, td_size d, td_flags d)) = Ok [c] /\
  (exists m, In m l /\ ~ is_sync m) /\
  (forall d', exists l', fragment_says d' c 7 1 l' /\ Forall2 same_sample l' l /\ Forall is_sync l').
Proof. exact C42_non_sync_refuted_pf. Qed.
Print Assumptions C42_non_sync_refuted.

Theorem C42_sync_refuted : exists d file c l,
  fragment_says d file 7 1 l /\ chunk_segment file 5000 (Some (1, td_dur d, td_size d, td_flags d)) = Ok [c] /\
  Forall is_sync l /\ l <> [] /\
  (forall d', exists l', fragment_says d' c 7 1 l' /\ Forall2 same_sample l' l /\ Forall (fun m => ~ is_sync m) l').
Proof. exact C42_sync_refuted_pf. Qed.
Print Assumptions C42_sync_refuted.

(** With the time offset 0, or none and an availability start time of 0. *)
Theorem C43_paced_partial : forall c n now sv d clock schedule, wf_cfg c ->
  c_timeoffset c = Some 0 \/ (c_timeoffset c = None /\ c_ast c = 0) ->
  segment_reply c now n = Ok (Serve sv) -> c_chunkdur c = Some d -> forward schedule ->
  exists times, send_times c (sv_time sv) clock schedule = Ok times /\
    paced (fun i => produced c n d i - (1 # 10))%Q 1 clock schedule times.
Proof. exact C43_paced_partial_pf. Qed.
(* examples meeting the hypotheses: ex_paced *)
Print Assumptions C43_paced_partial.

(** With another availability start time everything is sent at once: segment
    100 of a session started at 6000 covers 6600 to 6606 and is sent at 6000. *)
Theorem C43_start_refuted : exists c n sv times,
  ex_cfg ["start_6000"; "chunkdur_2"; "ato_inf"; "testpic"; "V1"; "100.m4s"]%string 6000 = Ok c /\
  segment_reply c 6000 n = Ok (Serve sv) /\
  send_times c (sv_time sv) 6000 [(0, 0); (0, 0); (0, 0)]%Q = Ok times /\
  Forall (fun t => t == 6000)%Q times /\ times <> [] /\
  produced c n 2 1 == 6602.
Proof. exact C43_start_refuted_pf. Qed.
Print Assumptions C43_start_refuted.

(** The same function of chunker.py, which has no margin and reads the clock
    only if it seems to be too early: chunks are not sent too early there. *)
Theorem C43_simulate : forall s d schedule i now clock, forward schedule -> (now <= clock)%Q ->
  paced (fun i => s + inject_Z i * d)%Q i clock schedule (simulate_loop s d i now clock schedule).
Proof. exact C43_simulate_pf. Qed.
(* examples meeting the hypotheses: ex_simulate *)
Print Assumptions C43_simulate.
