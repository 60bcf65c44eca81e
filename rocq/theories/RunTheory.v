(** C83: what runs and random access tables say about time. *)
From Verif Require Import Base BytesModel BoxSpec RunModel RunSpec RunProofs RunProofs2.
From Verif Require ChunkSpec.
From Coq Require Import Lia ZArith List.
Import ListNotations.
Open Scope Z_scope.

(** ** Runs *)
Lemma C83_durations_partial_pf : forall r data o default d,
  ChunkSpec.run_ok r -> Forall small_offset (ChunkSpec.rn_entries r) -> lies data o (run_box r) ->
  (Z.testbit (ChunkSpec.rn_flags r) 8 = true \/ default = Some d) -> 0 <= d ->
  exists lo hi, get_durations data o default = Ok (lasting (samples_of d r), lo, hi) /\
    earliest (begins (samples_of d r)) lo /\ latest (finishes (samples_of d r)) hi.
Proof. exact durations_of_run. Qed.

(** Three samples with sizes and signed offsets, the second shown last *)
Definition run3 : ChunkSpec.run := ChunkSpec.mk_run 1 2817 (Some 100) None
  [ChunkSpec.mk_entry (Some 20) (Some 7) None (Some 0); ChunkSpec.mk_entry (Some 20) (Some 8) None (Some 30);
   ChunkSpec.mk_entry (Some 10) (Some 9) None (Some (-45))].
Definition file3 : bytes := Eval vm_compute in [1; 2; 3] ++ run_box run3 ++ [9].
Example C83_durations_case : ChunkSpec.run_ok run3 /\ Forall small_offset (ChunkSpec.rn_entries run3) /\ lies file3 3 (run_box run3) /\
  get_durations file3 3 None = Ok (50, -5, 70).
Proof.
  split; [|split; [|split]].
  - unfold ChunkSpec.run_ok, run3. cbn. repeat split; try lia; try reflexivity. repeat constructor; cbn; try lia; reflexivity.
  - unfold run3. cbn. repeat constructor; cbn; lia.
  - exists [1; 2; 3], [9]. split; reflexivity.
  - vm_compute. reflexivity.
Qed.

(** An empty run with composition offsets: an exception *)
Definition run0 : ChunkSpec.run := ChunkSpec.mk_run 1 2304 None None [].
Lemma C83_empty_run_refuted_pf : exists r data o, ChunkSpec.rn_entries r = [] /\ lies data o (run_box r) /\
  lasting (samples_of 0 r) = 0 /\ get_durations data o (Some 20) = Err "IndexError".
Proof.
  exists run0, (run_box run0 ++ [0; 0; 0; 8; 109; 100; 97; 116]), 0. split; [reflexivity|]. split; [exists [], [0; 0; 0; 8; 109; 100; 97; 116]; split; reflexivity|].
  split; [reflexivity|]. vm_compute. reflexivity.
Qed.
(** Durations that are only in the trex box are not found. *)
Definition run_plain : ChunkSpec.run := ChunkSpec.mk_run 0 0 None None [ChunkSpec.mk_entry None None None None].
Lemma C83_no_default_refuted_pf : exists r data o d, ChunkSpec.run_ok r /\ lies data o (run_box r) /\ 0 < d /\
  lasting (samples_of d r) = d /\ get_durations data o None = Ok (0, 0, 0).
Proof.
  exists run_plain, (run_box run_plain), 0, 20. split; [|split; [|split; [|split]]].
  - unfold ChunkSpec.run_ok, run_plain. cbn. repeat split; try lia; try reflexivity. repeat constructor; cbn; try lia; reflexivity.
  - exists [], []. rewrite app_nil_r. split; reflexivity.
  - lia.
  - reflexivity.
  - vm_compute. reflexivity.
Qed.
(** Large offsets of version 0 are read as negative numbers. *)
Definition run_late : ChunkSpec.run := ChunkSpec.mk_run 0 2304 None None [ChunkSpec.mk_entry (Some 20) None None (Some 2147483648)].
Lemma C83_unsigned_refuted_pf : exists r data o, ChunkSpec.run_ok r /\ lies data o (run_box r) /\
  earliest (begins (samples_of 0 r)) 2147483648 /\ get_durations data o None = Ok (20, -2147483648, -2147483628).
Proof.
  exists run_late, (run_box run_late), 0. split; [|split; [|split]].
  - unfold ChunkSpec.run_ok, run_late. cbn. repeat split; try lia; try reflexivity. repeat constructor; cbn; try lia; reflexivity.
  - exists [], []. rewrite app_nil_r. split; reflexivity.
  - split; [exists [], 20, 2147483648, []; split; reflexivity|]. intros y (p & d & c & q & E & ->). destruct p as [|z [|? ?]]; inversion E; subst; cbn; lia.
  - vm_compute. reflexivity.
Qed.

(** ** Points *)
Lemma C83_points_partial_pf : forall data o a i p,
  access_ok a -> lies data o (access_box a) -> nth_error (ac_points a) i = Some p ->
  narrow (ac_traf a) (p_traf p) -> narrow (ac_trun a) (p_trun p) -> narrow (ac_sample a) (p_sample p) ->
  tfra_track data o = Ok (ac_track a) /\
  entry data o (Z.of_nat i) = Ok (p_time p, p_moof p, p_traf p, p_trun p, p_sample p).
Proof.
  intros data o a i p OK L H N1 N2 N3. split; [exact (track_ok data o a OK L)|]. rewrite (entry_any data o a OK L i p H).
  pose proof OK as (_ & _ & _ & _ & S1 & S2 & S3 & _ & P). rewrite Forall_forall in P. destruct (P p (nth_error_In _ _ H)) as (_ & _ & P3 & P4 & P5).
  assert (G : forall s x, narrow s x -> fits (Z.to_nat (s + 1)) x -> low s x = x).
  { intros s x N F. unfold low. destruct (Z.eqb_spec s 2) as [E|_]; [|reflexivity]. specialize (N E). unfold fits in F. apply Z.mod_small. lia. }
  rewrite !G by assumption. reflexivity.
Qed.
Definition seekable : access := mk_access 1 0 3 0 0 1 3
  [mk_point 0 1000 1 1 1; mk_point 50 1000 1 300 70000; mk_point 100 3000 1 1 1; mk_point 300 7000 1 1 1].
Definition seek_file : bytes := Eval vm_compute in [0; 0; 0; 200; 109; 102; 114; 97] ++ access_box seekable ++ [7].
Lemma seekable_ok : access_ok seekable /\ lies seek_file 8 (access_box seekable).
Proof.
  split.
  - unfold access_ok, seekable. cbn -[Z.pow]. repeat split; try lia. repeat constructor; cbn -[Z.pow]; try lia; reflexivity.
  - exists [0; 0; 0; 200; 109; 102; 114; 97], [7]. split; reflexivity.
Qed.
Example C83_points_case : access_ok seekable /\ lies seek_file 8 (access_box seekable) /\
  tfra_track seek_file 8 = Ok 3 /\ entry seek_file 8 1 = Ok (50, 1000, 1, 300, 70000).
Proof. split; [apply seekable_ok|]. split; [apply seekable_ok|]. split; vm_compute; reflexivity. Qed.
(** Of a number of three bytes the first one is lost. *)
Definition wide : access := mk_access 0 0 1 0 2 0 0 [mk_point 5 10 65537 1 1].
Lemma C83_narrow_refuted_pf : exists data o a p, access_ok a /\ lies data o (access_box a) /\ nth_error (ac_points a) 0 = Some p /\
  p_traf p = 65537 /\ entry data o 0 = Ok (p_time p, p_moof p, 1, p_trun p, p_sample p).
Proof.
  exists (access_box wide), 0, wide, (mk_point 5 10 65537 1 1). split; [|split; [|split; [|split]]]; try reflexivity.
  - unfold access_ok, wide. cbn -[Z.pow]. repeat split; try lia. repeat constructor; cbn -[Z.pow]; try lia; reflexivity.
  - exists [], []. rewrite app_nil_r. split; reflexivity.
Qed.

(** ** Fragments *)
Lemma C83_fragments_pf : forall data o a, access_ok a -> lies data o (access_box a) ->
  fragment_count data o = Ok (Z.of_nat (List.length (fragments (ac_points a)))) /\
  (forall k p, nth_error (fragments (ac_points a)) k = Some p ->
    time_for_fragment data o (Z.of_nat k + 1) = Ok (Some (p_time p)) /\
    moof_offset_for_fragment data o (Z.of_nat k + 1) =
      Ok (Some (p_moof p, match nth_error (fragments (ac_points a)) (S k) with Some q => p_moof q - p_moof p | None => 0 end))) /\
  (forall n, Z.of_nat (List.length (fragments (ac_points a))) < n ->
    time_for_fragment data o n = Ok None /\ moof_offset_for_fragment data o n = Ok None).
Proof.
  intros data o a OK L. split; [exact (count_ok data o a OK L)|]. split; [exact (fragment_ok data o a OK L)|exact (no_fragment data o a OK L)].
Qed.
Example C83_fragments_case : access_ok seekable /\ lies seek_file 8 (access_box seekable) /\
  fragment_count seek_file 8 = Ok 3 /\ time_for_fragment seek_file 8 2 = Ok (Some 100) /\
  moof_offset_for_fragment seek_file 8 2 = Ok (Some (3000, 4000)) /\ moof_offset_for_fragment seek_file 8 3 = Ok (Some (7000, 0)) /\
  moof_offset_for_fragment seek_file 8 4 = Ok None.
Proof. split; [apply seekable_ok|]. split; [apply seekable_ok|]. repeat split; vm_compute; reflexivity. Qed.
(** Fragments count from 1, but fragment 0 is answered with the last one. *)
Lemma C83_fragment_zero_refuted_pf : exists data o a, access_ok a /\ lies data o (access_box a) /\
  (exists p, nth_error (fragments (ac_points a)) 2 = Some p /\ p_time p = 300) /\ time_for_fragment data o 0 = Ok (Some 300).
Proof.
  exists seek_file, 8, seekable. split; [apply seekable_ok|]. split; [apply seekable_ok|]. split; [eexists; split; reflexivity|]. vm_compute. reflexivity.
Qed.

(** ** Offsets *)
Lemma C83_offsets_pf : forall data o a before p after, access_ok a -> lies data o (access_box a) ->
  ac_points a = before ++ p :: after -> Forall (fun q => p_moof q <> p_moof p) before ->
  time_for_moof_offset data o (p_moof p) = Ok (p_time p).
Proof. intros data o a before p after OK L. exact (offset_time data o a OK L before p after). Qed.
Example C83_offsets_case : access_ok seekable /\ lies seek_file 8 (access_box seekable) /\
  ac_points seekable = firstn 2 (ac_points seekable) ++ mk_point 100 3000 1 1 1 :: skipn 3 (ac_points seekable) /\
  Forall (fun q => p_moof q <> 3000) (firstn 2 (ac_points seekable)) /\
  time_for_moof_offset seek_file 8 3000 = Ok 100 /\ time_for_moof_offset seek_file 8 1000 = Ok 0.
Proof.
  split; [apply seekable_ok|]. split; [apply seekable_ok|]. split; [reflexivity|]. split; [cbn; repeat constructor; cbn; lia|]. split; vm_compute; reflexivity.
Qed.

(** ** Seeking *)
Lemma C83_seek_partial_pf : forall data o a t, access_ok a -> lies data o (access_box a) -> ordered (ac_points a) ->
  (forall p, last_until (ac_points a) t p ->
    (forall q, In q (fragments (ac_points a)) -> p_time q = t -> hd_error (ac_points a) = Some q) ->
    moof_offset_for_time data o t = Ok (p_moof p)) /\
  (forall first rest, ac_points a = first :: rest -> t <= p_time first -> moof_offset_for_time data o t = Ok (p_moof first)).
Proof.
  intros data o a t OK L O. split.
  - intros p H N. exact (seek_ok data o a OK L t p O H N).
  - intros first rest E B. exact (seek_before data o a OK L first rest t E O B).
Qed.
Lemma seekable_ordered : ordered (ac_points seekable).
Proof.
  intros i j p q H P Q. cbn [seekable ac_points] in *.
  destruct i as [|[|[|[|i]]]]; destruct j as [|[|[|[|j]]]]; try lia; cbn [nth_error] in *; try (destruct i; discriminate); try (destruct j; discriminate);
  inversion P; inversion Q; subst; cbn; lia.
Qed.
Example C83_seek_case : access_ok seekable /\ lies seek_file 8 (access_box seekable) /\ ordered (ac_points seekable) /\
  last_until (ac_points seekable) 299 (mk_point 100 3000 1 1 1) /\
  (forall q, In q (fragments (ac_points seekable)) -> p_time q = 299 -> hd_error (ac_points seekable) = Some q) /\
  moof_offset_for_time seek_file 8 299 = Ok 3000 /\ moof_offset_for_time seek_file 8 50 = Ok 1000 /\ moof_offset_for_time seek_file 8 0 = Ok 1000.
Proof.
  split; [apply seekable_ok|]. split; [apply seekable_ok|]. split; [apply seekable_ordered|]. split; [|split].
  - exists [mk_point 0 1000 1 1 1; mk_point 50 1000 1 300 70000], [mk_point 300 7000 1 1 1]. split; [reflexivity|]. split; [cbn; lia|]. repeat constructor.
  - intros q H E. cbn in H. destruct H as [<-|[<-|[<-|[]]]]; cbn in E; lia.
  - repeat split; vm_compute; reflexivity.
Qed.
(** The time at which a fragment begins is answered with the fragment before it. *)
Lemma C83_seek_refuted_pf : exists data o a t p, access_ok a /\ lies data o (access_box a) /\ ordered (ac_points a) /\
  last_until (ac_points a) t p /\ p_moof p = 3000 /\ moof_offset_for_time data o t = Ok 1000.
Proof.
  exists seek_file, 8, seekable, 100, (mk_point 100 3000 1 1 1). split; [apply seekable_ok|]. split; [apply seekable_ok|]. split; [apply seekable_ordered|].
  split; [exists [mk_point 0 1000 1 1 1; mk_point 50 1000 1 300 70000], [mk_point 300 7000 1 1 1]; split; [reflexivity|]; split; [cbn; lia|]; repeat constructor|].
  split; [reflexivity|]. vm_compute. reflexivity.
Qed.
(** An empty table: an exception *)
Definition none : access := mk_access 0 0 1 0 0 0 0 [].
Lemma C83_seek_empty_refuted_pf : exists data o a, access_ok a /\ lies data o (access_box a) /\ ac_points a = [] /\
  fragment_count data o = Ok 0 /\ moof_offset_for_time data o 0 = Err "IndexError".
Proof.
  exists (access_box none), 0, none. split; [unfold access_ok, none; cbn; repeat split; try lia; constructor|].
  split; [exists [], []; rewrite app_nil_r; split; reflexivity|]. repeat split; vm_compute; reflexivity.
Qed.

(** ** The end *)
Lemma C83_end_partial_pf : forall data o a rest p q, access_ok a -> lies data o (access_box a) ->
  ac_points a = rest ++ [p; q] -> end_time data o = Ok (p_time q + (p_time q - p_time p)).
Proof. intros data o a rest p q OK L. exact (end_any data o a OK L rest p q). Qed.
Example C83_end_case : access_ok seekable /\ lies seek_file 8 (access_box seekable) /\
  ac_points seekable = firstn 2 (ac_points seekable) ++ [mk_point 100 3000 1 1 1; mk_point 300 7000 1 1 1] /\ end_time seek_file 8 = Ok 500.
Proof. split; [apply seekable_ok|]. split; [apply seekable_ok|]. split; vm_compute; reflexivity. Qed.
(** With a single point the time before it is read from the head of the box: the end
    time depends on the number of the track. *)
Definition single (track : Z) : access := mk_access 0 0 track 0 0 0 0 [mk_point 90000 48 1 1 1].
Definition single_file (track : Z) : bytes := [0; 0; 0; 200; 109; 102; 114; 97] ++ access_box (single track).
Lemma C83_end_refuted_pf : exists data1 data2 o a1 a2, access_ok a1 /\ access_ok a2 /\
  lies data1 o (access_box a1) /\ lies data2 o (access_box a2) /\ ac_points a1 = ac_points a2 /\
  end_time data1 o = Ok 179744 /\ end_time data2 o = Ok 179488.
Proof.
  exists (single_file 1), (single_file 2), 8, (single 1), (single 2). split; [|split; [|split; [|split; [|split; [reflexivity|split; vm_compute; reflexivity]]]]].
  - unfold access_ok, single. cbn -[Z.pow]. repeat split; try lia. repeat constructor; cbn -[Z.pow]; try lia; reflexivity.
  - unfold access_ok, single. cbn -[Z.pow]. repeat split; try lia. repeat constructor; cbn -[Z.pow]; try lia; reflexivity.
  - exists [0; 0; 0; 200; 109; 102; 114; 97], []. rewrite app_nil_r. split; reflexivity.
  - exists [0; 0; 0; 200; 109; 102; 114; 97], []. rewrite app_nil_r. split; reflexivity.
Qed.

(** ** The size of the tables *)
Lemma C83_tail_pf : forall data o v f n, 0 <= v < 256 -> 0 <= f < 16777216 -> 0 <= n < 4294967296 ->
  lies data o (tail_box v f n) -> mfro_at data o 16 = Ok n.
Proof. exact mfro_ok. Qed.
Example C83_tail_case : lies ([1; 2] ++ tail_box 0 0 123456) 2 (tail_box 0 0 123456) /\ mfro_at ([1; 2] ++ tail_box 0 0 123456) 2 16 = Ok 123456.
Proof. split; [exists [1; 2], []; rewrite app_nil_r; split; reflexivity|]. vm_compute. reflexivity. Qed.
