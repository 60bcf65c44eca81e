(** Property theorems; proofs in ReadbackTheory.v, where the examples that meet the
    hypotheses stand beside each lemma. Generated by tools/gen_props.py. *)
From Verif Require Import Base BaseProofs BytesModel BytesProofs BoxSpec ChunkModel LangModel LangTheory InitModel InitSpec InitTheory
  BoxesModel BoxesSpec BoxesProofs BoxesTheory ReadbackSpec ReadbackProofs.
From Coq Require Import Lia ZArith List.
Import ListNotations.
From Verif Require Import ReadbackTheory.
Open Scope Z_scope.

(** The server reads track id, time scale, handler and sample defaults as given. *)
Theorem C78_server : forall c m out, codec_ok c -> init_file c m out -> 0 <= mi_track m < 4294967296 -> 0 <= mi_timescale m < 4294967296 ->
  exists st, init_filter out = Ok (out, st) /\ is_track_id st = Some (mi_track m) /\ is_timescale st = mi_timescale m /\
    is_handler st = Some (handler_of c) /\ is_trex st = Some (1, 0, 0, 0).
Proof. exact C78_server_pf. Qed.
Print Assumptions C78_server.

(** What the server sends for live is the init segment written without duration. *)
Theorem C78_live : forall c m out, codec_ok c -> init_file c m out ->
  exists out0, init_file c (no_duration m) out0 /\ init_live out = Ok out0.
Proof. exact C78_live_pf. Qed.
(* examples meeting the hypotheses: C78_server_case, C78_live_case *)
Print Assumptions C78_live.
