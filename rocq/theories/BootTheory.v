(** Statements about the readers of bootstrap boxes, run tables and random access
    boxes (C88). *)
From Verif Require Import Base BaseProofs BytesModel BytesProofs BoxSpec HeadSpec BootModel BootSpec BootProofs.
Open Scope Z_scope.

Ltac proper_tac :=
  repeat match goal with
    | |- _ /\ _ => split | |- fits _ _ => unfold fits; split | |- Forall _ (_ :: _) => constructor | |- Forall _ [] => constructor
    | |- 0 < _ < _ => split end;
  try (vm_compute; reflexivity); try (vm_compute; discriminate).

(** ** C88 *)
(** The run table of segments. *)
Lemma C88_segment_runs_partial_pf : forall pre post v flags s, fits 8 v -> fits 24 flags -> asrt_proper s ->
  let b := plain_box (bstr "asrt") (asrt_content v flags s) in asrt_at (pre ++ b ++ post) (blen pre) (blen b) = Ok s.
Proof. exact asrt_read. Qed.
Definition ex_asrt : asrt := mk_asrt [bstr "low"; bstr "high"] [(1, 5); (3, 4)].
Lemma ex_asrt_proper : asrt_proper ex_asrt.
Proof. unfold asrt_proper, texts_ok, text_ok, small, ex_asrt. cbn [sr_qualities sr_segments]. cbn [bstr]. proper_tac. Qed.
Example C88_segment_runs_partial_case : asrt_proper ex_asrt /\
  asrt_at ([1; 2] ++ asrt_box ex_asrt ++ [3]) 2 (blen (asrt_box ex_asrt)) = Ok ex_asrt.
Proof. split; [exact ex_asrt_proper|vm_compute; reflexivity]. Qed.
(** The run table of fragments, with the indicators of runs of duration 0. *)
Lemma C88_fragment_runs_partial_pf : forall pre post v flags f, fits 8 v -> fits 24 flags -> afrt_proper f ->
  let b := plain_box (bstr "afrt") (afrt_content v flags f) in afrt_at (pre ++ b ++ post) (blen pre) (blen b) = Ok f.
Proof. exact afrt_read. Qed.
Definition ex_afrt : afrt := mk_afrt 1000 [] [mk_frun 1 0 4000 None; mk_frun 6 20000 0 (Some 1); mk_frun 9 9000000000 2000 None].
Lemma ex_afrt_proper : afrt_proper ex_afrt.
Proof.
  unfold afrt_proper, texts_ok, small, run_ok, ex_afrt. cbn [ft_scale ft_qualities ft_runs fr_first fr_time fr_dur fr_disc].
  proper_tac; cbn [fr_first fr_time fr_dur fr_disc]; intuition (congruence || discriminate).
Qed.
Example C88_fragment_runs_partial_case : afrt_proper ex_afrt /\
  afrt_at ([1; 2] ++ afrt_box ex_afrt ++ [3]) 2 (blen (afrt_box ex_afrt)) = Ok ex_afrt.
Proof. split; [exact ex_afrt_proper|vm_compute; reflexivity]. Qed.
(** A bootstrap box with as many qualities as servers: all fields, and all run
    tables in it. *)
Lemma C88_bootstrap_partial_pf : forall pre post v flags a, fits 8 v -> fits 24 flags -> abst_proper a ->
  List.length (ab_qualities a) = List.length (ab_servers a) ->
  let b := plain_box (bstr "abst") (abst_content v flags a) in abst_at (pre ++ b ++ post) (blen pre) (blen b) = Ok a.
Proof. exact abst_read. Qed.
Definition ex_abst (servers qualities : list bytes) : abst :=
  mk_abst 7 0 1 0 1000 8000 0 (bstr "live") servers (Z.of_nat (List.length qualities)) qualities [] (bstr "m") [ex_asrt] [ex_afrt; ex_afrt].
Lemma ex_abst_proper : forall servers qualities, texts_ok servers -> texts_ok qualities -> abst_proper (ex_abst servers qualities).
Proof.
  intros servers qualities S Q. unfold abst_proper, ex_abst.
  cbn [ab_version ab_profile ab_live ab_update ab_scale ab_time ab_smpte ab_movie ab_servers ab_quality_count ab_qualities ab_drm ab_meta ab_segments ab_fragments].
  split; [proper_tac|]. split; [proper_tac|]. split; [unfold text_ok; cbn [bstr]; proper_tac|]. split; [auto|].
  split; (split; [vm_compute; reflexivity|]).
  - constructor; [|constructor]. split; [exact ex_asrt_proper|vm_compute; reflexivity].
  - constructor; [|constructor; [|constructor]]; (split; [exact ex_afrt_proper|vm_compute; reflexivity]).
Qed.
Lemma ex_texts : texts_ok [bstr "one"] /\ texts_ok [bstr "hd"] /\ texts_ok [].
Proof. unfold texts_ok, text_ok. cbn [bstr]. proper_tac. Qed.
Example C88_bootstrap_partial_case : let a := ex_abst [bstr "one"] [bstr "hd"] in abst_proper a /\
  let b := plain_box (bstr "abst") (abst_content 0 0 a) in abst_at ([1; 2] ++ b ++ [3]) 2 (blen b) = Ok a.
Proof. destruct ex_texts as (A & B & _). split; [exact (ex_abst_proper _ _ A B)|vm_compute; reflexivity]. Qed.
(** A random access box without global entries, or with both widths long or both
    short. *)
Lemma C88_random_access_partial_pf : forall pre post v flags a, fits 8 v -> fits 24 flags -> afra_proper a ->
  (fa_ids a = fa_offsets a \/ fa_globals a = []) ->
  let b := plain_box (bstr "afra") (afra_content v flags a) in afra_at (pre ++ b ++ post) (blen pre) (blen b) = Ok a.
Proof. exact afra_read. Qed.
Definition ex_afra (ids offsets : Z) : afra := mk_afra ids offsets 1 0 1000 [(0, 100); (9000000000, 200)] [(5, 1, 2, 3, 4)].
Lemma ex_afra_proper : forall ids offsets, fits 1 ids -> fits 1 offsets -> afra_proper (ex_afra ids offsets).
Proof.
  intros ids offsets I O. unfold afra_proper, ex_afra, small.
  cbn [fa_ids fa_offsets fa_global fa_reserved fa_scale fa_entries fa_globals].
  split; [exact I|]. split; [exact O|]. split; [proper_tac|]. split; [reflexivity|]. split; [proper_tac|]. split; [reflexivity|]. split; [reflexivity|].
  split; [discriminate|]. unfold entry_ok, global_ok, width, id_width. cbn [fst snd].
  destruct (ids =? 0), (offsets =? 0); proper_tac.
Qed.
Example C88_random_access_partial_case : afra_proper (ex_afra 1 1) /\
  let b := plain_box (bstr "afra") (afra_content 0 0 (ex_afra 1 1)) in afra_at ([9] ++ b ++ []) 1 (blen b) = Ok (ex_afra 1 1).
Proof. split; [apply ex_afra_proper; proper_tac|vm_compute; reflexivity]. Qed.
(** The qualities are counted by the servers: a bootstrap box with a quality and
    no server is read with no quality, and its text becomes the DRM data. *)
Lemma C88_qualities_refuted_pf : exists a a', abst_proper a /\
  (let b := plain_box (bstr "abst") (abst_content 0 0 a) in abst_at b 0 (blen b) = Ok a') /\
  ab_qualities a = [bstr "hd"] /\ ab_drm a = [] /\ ab_qualities a' = [] /\ ab_drm a' = bstr "hd".
Proof.
  exists (mk_abst 7 0 1 0 1000 8000 0 (bstr "live") [] 1 [bstr "hd"] [] [] [] []). eexists. split; [|split; [vm_compute; reflexivity|auto]].
  destruct ex_texts as (_ & B & C). unfold abst_proper, text_ok.
  cbn [ab_version ab_profile ab_live ab_update ab_scale ab_time ab_smpte ab_movie ab_servers ab_quality_count ab_qualities ab_drm ab_meta ab_segments ab_fragments].
  split; [proper_tac|]. split; [proper_tac|]. split; [cbn [bstr]; proper_tac|]. split; [auto|]. split; (split; [reflexivity|constructor]).
Qed.
(** The offsets of global entries are read in the width of the ids: short ids with
    long offsets give wrong offsets, long ids with short offsets an exception. *)
Lemma C88_offsets_refuted_pf : exists a a' e, afra_proper a /\ afra_proper e /\
  (let b := plain_box (bstr "afra") (afra_content 0 0 a) in afra_at b 0 (blen b) = Ok a') /\
  fa_globals a = [(5, 1, 2, 3, 4)] /\ fa_globals a' = [(5, 1, 2, 0, 3)] /\
  (let b := plain_box (bstr "afra") (afra_content 0 0 e) in afra_at b 0 (blen b) = Err "StopIteration").
Proof.
  exists (ex_afra 0 1). eexists. exists (ex_afra 1 0). split; [apply ex_afra_proper; proper_tac|]. split; [apply ex_afra_proper; proper_tac|].
  split; [vm_compute; reflexivity|]. split; [reflexivity|]. split; vm_compute; reflexivity.
Qed.
