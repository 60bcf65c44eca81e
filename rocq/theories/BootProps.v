(** Property theorems; proofs in BootTheory.v, where the examples that meet the
    hypotheses stand beside each lemma. Generated by tools/gen_props.py. *)
From Verif Require Import Base BaseProofs BytesModel BytesProofs BoxSpec HeadSpec BootModel BootSpec BootProofs.
From Verif Require Import BootTheory.
Open Scope Z_scope.

(** The run table of segments. *)
Theorem C88_segment_runs_partial : forall pre post v flags s, fits 8 v -> fits 24 flags -> asrt_proper s ->
  let b := plain_box (bstr "asrt") (asrt_content v flags s) in asrt_at (pre ++ b ++ post) (blen pre) (blen b) = Ok s.
Proof. exact C88_segment_runs_partial_pf. Qed.
(* examples meeting the hypotheses: C88_segment_runs_partial_case *)
Print Assumptions C88_segment_runs_partial.

(** The run table of fragments, with the indicators of runs of duration 0. *)
Theorem C88_fragment_runs_partial : forall pre post v flags f, fits 8 v -> fits 24 flags -> afrt_proper f ->
  let b := plain_box (bstr "afrt") (afrt_content v flags f) in afrt_at (pre ++ b ++ post) (blen pre) (blen b) = Ok f.
Proof. exact C88_fragment_runs_partial_pf. Qed.
(* examples meeting the hypotheses: C88_fragment_runs_partial_case *)
Print Assumptions C88_fragment_runs_partial.

(** A bootstrap box with as many qualities as servers: all fields, and all run
    tables in it. *)
Theorem C88_bootstrap_partial : forall pre post v flags a, fits 8 v -> fits 24 flags -> abst_proper a ->
  List.length (ab_qualities a) = List.length (ab_servers a) ->
  let b := plain_box (bstr "abst") (abst_content v flags a) in abst_at (pre ++ b ++ post) (blen pre) (blen b) = Ok a.
Proof. exact C88_bootstrap_partial_pf. Qed.
(* examples meeting the hypotheses: C88_bootstrap_partial_case *)
Print Assumptions C88_bootstrap_partial.

(** A random access box without global entries, or with both widths long or both
    short. *)
Theorem C88_random_access_partial : forall pre post v flags a, fits 8 v -> fits 24 flags -> afra_proper a ->
  (fa_ids a = fa_offsets a \/ fa_globals a = []) ->
  let b := plain_box (bstr "afra") (afra_content v flags a) in afra_at (pre ++ b ++ post) (blen pre) (blen b) = Ok a.
Proof. exact C88_random_access_partial_pf. Qed.
(* examples meeting the hypotheses: C88_random_access_partial_case *)
Print Assumptions C88_random_access_partial.

(** The qualities are counted by the servers: a bootstrap box with a quality and
    no server is read with no quality, and its text becomes the DRM data. *)
Theorem C88_qualities_refuted : exists a a', abst_proper a /\
  (let b := plain_box (bstr "abst") (abst_content 0 0 a) in abst_at b 0 (blen b) = Ok a') /\
  ab_qualities a = [bstr "hd"] /\ ab_drm a = [] /\ ab_qualities a' = [] /\ ab_drm a' = bstr "hd".
Proof. exact C88_qualities_refuted_pf. Qed.
Print Assumptions C88_qualities_refuted.

(** The offsets of global entries are read in the width of the ids: short ids with
    long offsets give wrong offsets, long ids with short offsets an exception. *)
Theorem C88_offsets_refuted : exists a a' e, afra_proper a /\ afra_proper e /\
  (let b := plain_box (bstr "afra") (afra_content 0 0 a) in afra_at b 0 (blen b) = Ok a') /\
  fa_globals a = [(5, 1, 2, 3, 4)] /\ fa_globals a' = [(5, 1, 2, 0, 3)] /\
  (let b := plain_box (bstr "afra") (afra_content 0 0 e) in afra_at b 0 (blen b) = Err "StopIteration").
Proof. exact C88_offsets_refuted_pf. Qed.
Print Assumptions C88_offsets_refuted.
