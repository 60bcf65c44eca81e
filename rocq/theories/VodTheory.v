(** Statements about the analyzer, its tables and its configuration file (C30,
    C54, C58, C66). *)
From Coq Require Import Permutation ZifyBool ZifyNat.
From Verif Require Import Base BaseProofs BytesModel BoxSpec ConfigModel Mp4Model InitModel MediaModel TimelineModel TimelineSpec
  VodModel VodSpec VodProofs VodProofs2 VodProofs3.
Local Open Scope string_scope.
Open Scope Z_scope.

(** *** Content for the examples: init segments with time scale 1000, fragments
    with one sample. *)
Definition ex_head : bytes := encs
  [Leaf (bstr "ftyp") (bstr "iso6");
   Node (bstr "moov")
     [Leaf (bstr "mvhd") ([0; 0; 0; 0] ++ repeat 0 8 ++ [0; 0; 3; 232] ++ repeat 0 8)%list;
      Node (bstr "trak")
        [Leaf (bstr "tkhd") ([0; 0; 0; 7] ++ repeat 1 8 ++ [0; 0; 0; 2] ++ repeat 0 4 ++ [1; 2; 3; 4] ++ repeat 6 8)%list;
         Node (bstr "mdia")
           [Leaf (bstr "mdhd") ([0; 0; 0; 0] ++ repeat 1 8 ++ [0; 0; 3; 232] ++ [9; 9; 9; 9] ++ [85; 196; 0; 0])%list;
            Leaf (bstr "hdlr") ([0; 0; 0; 0; 0; 0; 0; 0] ++ bstr "vide" ++ repeat 0 12)%list]];
      Node (bstr "mvex") [Leaf (bstr "trex") ([0; 0; 0; 0; 0; 0; 0; 2; 0; 0; 0; 1; 0; 0; 3; 232; 0; 0; 0; 0; 1; 1; 0; 0])]]].
Definition ex_file (start duration : Z) : bytes := encs
  [Node (bstr "moof")
     [Leaf (bstr "mfhd") [0; 0; 0; 0; 0; 0; 0; 1];
      Node (bstr "traf")
        [Leaf (bstr "tfhd") [0; 2; 0; 0; 0; 0; 0; 2];
         Leaf (bstr "tfdt") ([0; 0; 0; 0] ++ be32 start)%list;
         Leaf (bstr "trun") ([0; 0; 1; 0; 0; 0; 0; 1] ++ be32 duration)%list]];
   Leaf (bstr "mdat") [1; 2; 3]].
(** A representation with segments of the given durations, numbered from
    [first], starting at 0. *)
Fixpoint ex_files (nr start : Z) (durs : list Z) : list (Z * bytes) :=
  match durs with [] => [] | d :: r => (nr, ex_file start d) :: ex_files (nr + 1) (start + d) r end.
Definition ex_rep (id : string) (durs : list Z) : vrep := mk_vrep id ex_head (ex_files 1 0 durs).
Definition ex_set (type : string) (reps : list vrep) : vset := mk_vset type 2000 1000 1 reps.
(** Video with an irregular second segment, and audio. *)
Definition ex_sets : list vset :=
  [ex_set "video" [ex_rep "V300" [2000; 2040; 1960]; ex_rep "V600" [2000; 2000; 2000]]; ex_set "audio" [ex_rep "A48" [2000; 2000; 2000]]].
Definition ex_tables : list mdata :=
  [mk_mdata "video" ["V300"; "V600"] 1000 6000 "content_video.dat"
     [1; 0; 0; 0; 0; 0; 0; 0; 208; 7; 0; 0; 2; 0; 0; 0; 208; 7; 0; 0; 248; 7; 0; 0; 3; 0; 0; 0; 200; 15; 0; 0; 168; 7; 0; 0];
   mk_mdata "audio" ["A48"] 1000 6000 "content_audio.dat" [1; 0; 2; 0; 0; 0; 0; 0; 208; 7; 0; 0]].
Definition ex_vod_data : vod_data := mk_vod_data 300 2 3 1 (map (fun m => (md_type m, m)) ex_tables).
Lemma ex_analysis : analyze "content" ex_sets = Ok (ex_vod_data, ex_tables).
Proof. vm_compute. reflexivity. Qed.
Lemma ex_named : named ex_sets.
Proof. repeat constructor; cbn; lia. Qed.
Definition ex_list : list seg := [(1, 0, 2000); (2, 2000, 2040); (3, 4040, 1960)].
Ltac segments_tac :=
  split; [discriminate|]; split; [cbn; auto 10|]; split; [apply Permutation_refl|];
  exists 1000; split;
  [ do 2 eexists; exists 1, 0, 16842752; split; [vm_compute; reflexivity|]; split; vm_compute; reflexivity
  | repeat (constructor; [eexists; split; [cbn; auto 10|]; do 2 eexists; split; [vm_compute; reflexivity|]; split; vm_compute; reflexivity|]); constructor ].
Lemma ex_list_of : segments_of (ex_rep "V300" [2000; 2040; 1960]) 1000 1 ex_list.
Proof. segments_tac. Qed.
Lemma ex_contiguous : contiguous ex_list.
Proof. cbn. unfold s_end, s_start, s_dur. cbn. repeat split. Qed.

(** ** C30 *)
(** The table written for a set, read back, expands to exactly the numbers,
    starts and durations of the segments of its first representation. *)
Lemma C30_roundtrip_pf : forall base sets cfg ms k s m r1 rs l,
  analyze base sets = Ok (cfg, ms) -> named sets -> nth_error sets k = Some s -> nth_error ms k = Some m ->
  vs_reps s = r1 :: rs -> segments_of r1 (md_timescale m) (vd_first cfg) l -> contiguous l ->
  exists tab, read_table (md_table m) = Ok tab /\ expansion tab = l.
Proof.
  intros base sets cfg ms k s m r1 rs l H FN S M RS SG CT.
  destruct (analyze_facts _ _ _ _ H FN) as (ns & n0 & ns' & _ & R & _).
  destruct (results_nth _ _ _ _ _ R _ _ _ S M) as (n & _ & SR).
  destruct SR as (_ & _ & _ & (r1' & rs' & l' & RS' & SG' & _ & _ & TB) & _).
  rewrite RS in RS'. injection RS' as <- <-. destruct (segments_det _ _ _ _ _ _ SG SG') as (<- & _).
  destruct (TB CT) as (tab & T1 & T2 & _). exists tab. auto.
Qed.
Example C30_roundtrip_case : exists tab,
  read_table (md_table (nth 0 ex_tables (mk_mdata "" [] 0 0 "" []))) = Ok tab /\ expansion tab = ex_list /\ List.length tab = 3%nat.
Proof.
  destruct (C30_roundtrip_pf "content" ex_sets _ _ 0 _ _ _ _ ex_list ex_analysis ex_named eq_refl eq_refl eq_refl ex_list_of ex_contiguous) as (tab & A & B).
  exists tab. split; [exact A|]. split; [exact B|]. vm_compute in A. injection A as <-. reflexivity.
Qed.
(** A segment that begins a run (the first one, or one with another duration
    than the segment before it) and whose number, start or duration does not fit
    its field makes the analysis fail. *)
Lemma C30_refused_pf : forall base sets s r1 rs ts first l a x b,
  named sets -> In s sets -> vs_reps s = r1 :: rs -> segments_of r1 ts first l -> contiguous l ->
  l = (a ++ x :: b)%list -> (a = [] \/ s_dur (last a x) <> s_dur x) ->
  (65536 <= s_nr x \/ 4294967296 <= s_start x \/ s_start x < 0 \/ 4294967296 <= s_dur x) ->
  forall out, analyze base sets <> Ok out.
Proof.
  intros base sets s r1 rs ts first l a x b FN IS RS SG CT E RUN W (cfg & ms) H.
  destruct (analyze_facts _ _ _ _ H FN) as (ns & n0 & ns' & _ & R & _).
  destruct (results_length _ _ _ _ _ R) as (L1 & _). apply In_nth_error in IS. destruct IS as (k & S).
  destruct (nth_error ms k) as [m|] eqn:M; [|apply nth_error_None in M; apply nth_error_Some_length in S; lia].
  destruct (results_nth _ _ _ _ _ R _ _ _ S M) as (n & _ & SR).
  destruct SR as (_ & _ & _ & (r1' & rs' & l' & RS' & SG' & _ & _ & TB) & _).
  rewrite RS in RS'. injection RS' as <- <-.
  pose proof (segments_first _ _ _ _ _ _ _ SG SG') as FE. rewrite <- FE in SG'. destruct (segments_det _ _ _ _ _ _ SG SG') as (<- & _).
  destruct (TB CT) as (tab & _ & T2 & T3). clear TB. rewrite E in T2.
  destruct (run_start tab a x b T3 T2) as [(e & IE & <-)|(NE & Q)].
  - rewrite Forall_forall in T3. destruct (T3 _ IE) as (A & _ & B & C). cbn in W. lia.
  - destruct RUN as [->|RUN]; [contradiction|]. contradiction.
Qed.
(** A representation whose files are numbered from 65536 on. *)
Definition ex_wide : vrep := mk_vrep "V1" ex_head (ex_files 65536 0 [2000; 2000]).
Example C30_refused_case : named [ex_set "video" [ex_wide]] /\
  segments_of ex_wide 1000 65536 [(65536, 0, 2000); (65537, 2000, 2000)] /\
  analyze "content" [ex_set "video" [ex_wide]] = Err "struct.error".
Proof. split; [repeat constructor; cbn; lia|]. split; [segments_tac|]. vm_compute. reflexivity. Qed.
(** Without contiguity the table may lose a gap: two segments of equal duration
    with a gap of 50 ms between them are listed as if they followed each other. *)
Example C30_gap_case :
  let gap := mk_vrep "V1" ex_head [(1, ex_file 0 2000); (2, ex_file 2050 2000)] in
  segments_of gap 1000 1 [(1, 0, 2000); (2, 2050, 2000)] /\
  exists cfg m, analyze "content" [ex_set "video" [gap]] = Ok (cfg, [m]) /\
    exists tab, read_table (md_table m) = Ok tab /\ expansion tab = [(1, 0, 2000); (2, 2000, 2000)].
Proof.
  cbn zeta. split; [segments_tac|]. do 2 eexists. split; [vm_compute; reflexivity|]. eexists. split; vm_compute; reflexivity.
Qed.

(** ** C58 *)
(** The segments of every representation of every set have consecutive numbers,
    from the same first number, and every end is less than 0.1 s off the grid. *)
Lemma C58_grid_pf : forall base sets cfg ms k s m r,
  analyze base sets = Ok (cfg, ms) -> named sets -> nth_error sets k = Some s -> nth_error ms k = Some m ->
  In r (vs_reps s) ->
  exists l, segments_of r (md_timescale m) (vd_first cfg) l /\ near_grid (md_timescale m) (vd_duration cfg) l.
Proof.
  intros base sets cfg ms k s m r H FN S M IR.
  destruct (analyze_facts _ _ _ _ H FN) as (ns & n0 & ns' & _ & R & _).
  destruct (results_nth _ _ _ _ _ R _ _ _ S M) as (n & _ & SR). destruct SR as (_ & _ & _ & _ & FR).
  rewrite Forall_forall in FR. exact (FR _ IR).
Qed.
Example C58_grid_case : near_grid 1000 2 ex_list /\ exists s, nth_error ex_sets 0 = Some s /\ List.length (vs_reps s) = 2%nat.
Proof.
  split; [|eexists; split; reflexivity]. intros s0 rest E. injection E as <- <-.
  intros k s K. destruct k as [|[|[|k]]]; cbn in K; try (injection K as <-; vm_compute; reflexivity). destruct k; discriminate.
Qed.
(** The loop holds the first [vd_n] segments of the first representation of each
    set, and their extent is less than 0.1 s off the duration of the loop. *)
Lemma C58_loop_partial_pf : forall base sets cfg ms k s m r1 rs l,
  analyze base sets = Ok (cfg, ms) -> named sets -> nth_error sets k = Some s -> nth_error ms k = Some m ->
  vs_reps s = r1 :: rs -> segments_of r1 (md_timescale m) (vd_first cfg) l ->
  let loop := firstn (Z.to_nat (vd_n cfg)) l in
  0 < vd_n cfg /\ Z.of_nat (List.length loop) = vd_n cfg /\
  exists t, extent loop t /\ 10 * Z.abs (t - vd_n cfg * vd_duration cfg * md_timescale m) < md_timescale m.
Proof.
  intros base sets cfg ms k s m r1 rs l H FN S M RS SG. cbn zeta.
  destruct (analyze_facts _ _ _ _ H FN) as (ns & n0 & ns' & NS & R & MIN & _).
  assert (POS : forall n, In n ns -> vd_first cfg <= n).
  { intros n IN. clear -R IN. induction R as [|s m n1 sets ms ns SR R IH]; [destruct IN|]. destruct IN as [<-|IN]; [|auto].
    destruct SR as (_ & _ & _ & (r & rs & l & _ & (NE & _) & -> & _) & _). destruct l; [contradiction|]. cbn [List.length]. lia. }
  destruct (results_nth _ _ _ _ _ R _ _ _ S M) as (n & NK & SR).
  destruct SR as (_ & _ & _ & (r1' & rs' & l' & RS' & SG' & LAST & _) & FR).
  rewrite RS in RS'. injection RS' as <- <-. destruct (segments_det _ _ _ _ _ _ SG SG') as (<- & _).
  rewrite RS in FR. inversion FR as [|? ? (l' & SG2 & NG) _]; subst. destruct (segments_det _ _ _ _ _ _ SG SG2) as (<- & _).
  destruct (list_min_spec ns' n0) as (MA & MB & MC). pose proof (POS _ MC) as P.
  assert (LE : vd_n cfg <= Z.of_nat (List.length l)).
  { apply nth_error_In in NK. destruct NK as [Q|Q]; [|specialize (MB _ Q)]; lia. }
  assert (P0 : 0 < vd_n cfg) by lia. split; [exact P0|]. rewrite firstn_length.
  split; [lia|]. destruct l as [|s0 rest]; [cbn in LE; lia|].
  destruct (Z.to_nat (vd_n cfg)) as [|j] eqn:J; [lia|]. cbn [firstn].
  exists (s_end (last (s0 :: firstn j rest) s0) - s_start s0). split; [exists s0, (firstn j rest); auto|].
  assert (X : nth_error (s0 :: rest) j = Some (last (s0 :: firstn j rest) s0)).
  { cbn [List.length] in LE. assert (JL : (j <= List.length rest)%nat) by lia. clear -JL.
    revert s0 rest JL. induction j as [|j IH]; intros s0 rest JL; [reflexivity|]. destruct rest as [|q rest]; [cbn in JL; lia|].
    cbn [nth_error firstn]. cbn [List.length] in JL. rewrite (IH q rest ltac:(lia)). f_equal. cbn [last]. destruct (firstn j rest); [reflexivity|]. apply last_any. discriminate. }
  pose proof (NG s0 rest eq_refl _ _ X) as Y. replace (Z.of_nat j + 1) with (vd_n cfg) in Y by lia. lia.
Qed.
Example C58_loop_partial_case : nth_error ex_sets 0 = Some (nth 0 ex_sets (ex_set "" [])) /\
  segments_of (ex_rep "V300" [2000; 2040; 1960]) 1000 (vd_first ex_vod_data) ex_list /\ vd_n ex_vod_data = 3 /\ extent ex_list 6000.
Proof. split; [reflexivity|]. split; [exact ex_list_of|]. split; [reflexivity|]. exists (1, 0, 2000), [(2, 2000, 2040); (3, 4040, 1960)]. split; reflexivity. Qed.
(** The total duration noted for a set as long as the loop is that of its
    content, and less than 0.1 s off the duration of the loop. *)
Lemma C58_duration_partial_pf : forall base sets cfg ms k s m r1 rs l,
  analyze base sets = Ok (cfg, ms) -> named sets -> nth_error sets k = Some s -> nth_error ms k = Some m ->
  vs_reps s = r1 :: rs -> segments_of r1 (md_timescale m) (vd_first cfg) l ->
  extent l (md_total m) /\
  (Z.of_nat (List.length l) = vd_n cfg ->
   10 * Z.abs (md_total m - vd_n cfg * vd_duration cfg * md_timescale m) < md_timescale m).
Proof.
  intros base sets cfg ms k s m r1 rs l H FN S M RS SG.
  destruct (C58_loop_partial_pf _ _ _ _ _ _ _ _ _ _ H FN S M RS SG) as (_ & _ & t & T & B).
  destruct (analyze_facts _ _ _ _ H FN) as (ns & n0 & ns' & _ & R & _).
  destruct (results_nth _ _ _ _ _ R _ _ _ S M) as (n & _ & SR).
  destruct SR as (_ & _ & _ & (r1' & rs' & l' & RS' & SG' & _ & EX & _) & _).
  rewrite RS in RS'. injection RS' as <- <-. destruct (segments_det _ _ _ _ _ _ SG SG') as (<- & _).
  split; [exact EX|]. intros L. rewrite <- L, Nat2Z.id, firstn_all in T.
  destruct T as (s0 & r & E & ->). destruct EX as (s1 & r' & E' & ->). rewrite E in E'. injection E' as <- <-. exact B.
Qed.
Example C58_duration_partial_case : md_total (nth 0 ex_tables (mk_mdata "" [] 0 0 "" [])) = 6000 /\
  Z.of_nat (List.length ex_list) = vd_n ex_vod_data /\ segments_of (ex_rep "V300" [2000; 2040; 1960]) 1000 (vd_first ex_vod_data) ex_list.
Proof. split; [reflexivity|]. split; [reflexivity|]. exact ex_list_of. Qed.
(** Sets of different length are accepted; the loop then ends with the shortest
    one, far from the end of the longer one. *)
Lemma C58_total_refuted_pf : exists base sets cfg ms m, analyze base sets = Ok (cfg, ms) /\ named sets /\ In m ms /\
  ~ 10 * Z.abs (md_total m - vd_n cfg * vd_duration cfg * md_timescale m) < md_timescale m.
Proof.
  exists "content", [ex_set "video" [ex_rep "V1" [2000; 2000; 2000]]; ex_set "audio" [ex_rep "A1" [2000; 2000]]].
  do 3 eexists. split; [vm_compute; reflexivity|]. split; [repeat constructor; cbn; lia|]. split; [left; reflexivity|].
  vm_compute. discriminate.
Qed.
(** A further representation that is shorter than the loop is accepted: some
    segment number of the loop has no file. *)
Lemma C58_missing_refuted_pf : exists base sets cfg ms s r nr, analyze base sets = Ok (cfg, ms) /\ named sets /\
  In s sets /\ In r (vs_reps s) /\ vd_first cfg <= nr < vd_first cfg + vd_n cfg /\ ~ In nr (map fst (vr_files r)).
Proof.
  set (r2 := ex_rep "V2" [2000; 2000]). set (s := ex_set "video" [ex_rep "V1" [2000; 2000; 2000]; r2]).
  assert (A : exists cfg ms, analyze "content" [s] = Ok (cfg, ms) /\ vd_first cfg = 1 /\ vd_n cfg = 3)
    by (do 2 eexists; split; [vm_compute; reflexivity|split; reflexivity]).
  destruct A as (cfg & ms & A & F & N). exists "content", [s], cfg, ms, s, r2, 3. split; [exact A|].
  split; [repeat constructor; cbn; lia|]. split; [left; reflexivity|]. split; [right; left; reflexivity|].
  split; [lia|]. cbn. lia.
Qed.

(** ** C54 *)
(** The configuration written after an analysis is read back with the same
    loop, duration and media data of video and audio, and a representation is
    found under its content type when no other set has its id. *)
Lemma C54_roundtrip_partial_pf : forall base sets cfg ms,
  analyze base sets = Ok (cfg, ms) -> named sets -> strip base = base ->
  Forall (fun s => Forall (fun r => plain_id (vr_id r)) (vs_reps s)) sets -> vd_duration cfg <> 0 ->
  exists v, read_config (write_config cfg) = Ok v /\ v_first v = vd_first cfg /\ v_n v = vd_n cfg /\ v_dur v = vd_duration cfg /\
    v_tsbd v = vd_tsbd cfg /\ NoDup (map fst (v_media v)) /\
    forall k s m, nth_error sets k = Some s -> nth_error ms k = Some m -> In (vs_type s) ["video"; "audio"] ->
    let entry := mkMedia (md_timescale m) (map vr_id (vs_reps s)) (Some (md_total m)) (Some (md_dat m)) in
    In (vs_type s, entry) (v_media v) /\
    forall r, In r (vs_reps s) ->
      (forall s', In s' sets -> vs_type s' <> vs_type s -> ~ In (vr_id r) (map vr_id (vs_reps s'))) ->
      content_type_for_rep (v_media v) (vr_id r) = Some (vs_type s, entry).
Proof. exact config_whole. Qed.
Lemma plain_easy : forall id, existsb (fun c => Ascii.eqb c ",") (list_ascii_of_string id) = false -> strip id = id -> plain_id id.
Proof.
  intros id H S. split; [|exact S]. intros I. assert (K : existsb (fun c => Ascii.eqb c ",") (list_ascii_of_string id) = true).
  { apply existsb_exists. exists ","%char. split; [exact I|reflexivity]. } congruence.
Qed.
Example C54_roundtrip_partial_case :
  Forall (fun s => Forall (fun r => plain_id (vr_id r)) (vs_reps s)) ex_sets /\
  exists v, read_config (write_config ex_vod_data) = Ok v /\
    content_type_for_rep (v_media v) "V600" = Some ("video", mkMedia 1000 ["V300"; "V600"] (Some 6000) (Some "content_video.dat")) /\
    v_n v = 3 /\ v_dur v = 2.
Proof.
  split; [repeat constructor; apply plain_easy; reflexivity|]. eexists. split; [vm_compute; reflexivity|]. vm_compute. auto.
Qed.
(** The number of ids changes when one of them contains a comma. *)
Lemma C54_comma_refuted_pf : exists base sets cfg ms v r, analyze base sets = Ok (cfg, ms) /\ named sets /\
  read_config (write_config cfg) = Ok v /\ In r (flat_map vs_reps sets) /\ strip (vr_id r) = vr_id r /\
  content_type_for_rep (v_media v) (vr_id r) = None.
Proof.
  exists "content", [ex_set "video" [ex_rep "en,us" [2000; 2000]]]. do 4 eexists.
  split; [vm_compute; reflexivity|]. split; [repeat constructor; cbn; lia|]. split; [vm_compute; reflexivity|].
  split; [left; reflexivity|]. split; reflexivity.
Qed.
(** Sets of other types are analyzed, but not written. *)
Lemma C54_subtitles_refuted_pf : exists base sets cfg ms v r, analyze base sets = Ok (cfg, ms) /\ named sets /\
  Forall (fun s => Forall (fun r => plain_id (vr_id r)) (vs_reps s)) sets /\
  read_config (write_config cfg) = Ok v /\ In r (flat_map vs_reps sets) /\ content_type_for_rep (v_media v) (vr_id r) = None.
Proof.
  exists "content", [ex_set "video" [ex_rep "V1" [2000; 2000]]; ex_set "subtitles" [ex_rep "S1" [2000; 2000]]]. do 3 eexists.
  exists (ex_rep "S1" [2000; 2000]).
  split; [vm_compute; reflexivity|]. split; [repeat constructor; cbn; lia|]. split; [repeat constructor; apply plain_easy; reflexivity|].
  split; [vm_compute; reflexivity|]. split; [right; left; reflexivity|]. reflexivity.
Qed.
(** A representation whose id is also used by the video is found as video. *)
Lemma C54_same_id_refuted_pf : exists base sets cfg ms v s r m, analyze base sets = Ok (cfg, ms) /\ named sets /\
  Forall (fun s => Forall (fun r => plain_id (vr_id r)) (vs_reps s)) sets /\
  read_config (write_config cfg) = Ok v /\ In s sets /\ In r (vs_reps s) /\ vs_type s = "audio" /\
  content_type_for_rep (v_media v) (vr_id r) = Some ("video", m).
Proof.
  exists "content", [ex_set "video" [ex_rep "1" [2000; 2000]]; ex_set "audio" [ex_rep "1" [2000; 2000]]]. do 3 eexists.
  exists (ex_set "audio" [ex_rep "1" [2000; 2000]]), (ex_rep "1" [2000; 2000]). eexists.
  split; [vm_compute; reflexivity|]. split; [repeat constructor; cbn; lia|]. split; [repeat constructor; apply plain_easy; reflexivity|].
  split; [vm_compute; reflexivity|]. split; [right; left; reflexivity|]. split; [left; reflexivity|]. split; [reflexivity|]. vm_compute. reflexivity.
Qed.
(** Segments shorter than a second are analyzed with a nominal duration of 0
    seconds, and the configuration that is written is refused.  (With time scale
    1000, one segment of 0.05 s.) *)
Lemma C54_short_refuted_pf : exists base sets cfg ms, analyze base sets = Ok (cfg, ms) /\ named sets /\
  Forall (fun s => Forall (fun r => plain_id (vr_id r)) (vs_reps s)) sets /\
  read_config (write_config cfg) = Err "ConfigProcessorError".
Proof.
  exists "content", [mk_vset "video" 50 1000 1 [ex_rep "V1" [50]]]. do 2 eexists.
  split; [vm_compute; reflexivity|]. split; [repeat constructor; cbn; lia|]. split; [repeat constructor; apply plain_easy; reflexivity|].
  vm_compute. reflexivity.
Qed.

(** ** C66 *)
(** The table and configuration of contiguous content that starts at 0 and ends
    exactly with the loop give a timeline generator whose loop is that content:
    the hypotheses of the timeline theorems are met. *)
Lemma C66_generator_pf : forall base sets cfg ms v c k s m r1 rs l s0 rest,
  analyze base sets = Ok (cfg, ms) -> named sets -> read_config (write_config cfg) = Ok v ->
  nth_error sets k = Some s -> nth_error ms k = Some m -> vs_reps s = r1 :: rs ->
  segments_of r1 (md_timescale m) (vd_first cfg) l -> contiguous l ->
  l = s0 :: rest -> s_start s0 = 0 -> s_end (last l s0) = vd_n cfg * vd_duration cfg * md_timescale m ->
  exists tab, read_table (md_table m) = Ok tab /\
    let g := generator (update_with_vodcfg c v) (md_timescale m) tab in
    table_segs (tg_table g) = map (fun x => (s_start x, s_dur x)) l /\ gen_ok g /\ on_grid g (vd_duration cfg).
Proof. exact generator_fed. Qed.
Example C66_generator_case : exists v, read_config (write_config ex_vod_data) = Ok v /\
  contiguous ex_list /\ s_end (last ex_list (1, 0, 2000)) = vd_n ex_vod_data * vd_duration ex_vod_data * 1000.
Proof. eexists. split; [vm_compute; reflexivity|]. split; [exact ex_contiguous|reflexivity]. Qed.
(** With what the server finds in the file it has read: entry, time scale and
    name of the table. *)
Lemma C66_server_pf : forall base sets cfg ms v c k s m r1 rs l s0 rest,
  analyze base sets = Ok (cfg, ms) -> named sets -> strip base = base ->
  Forall (fun s => Forall (fun r => plain_id (vr_id r)) (vs_reps s)) sets -> vd_duration cfg <> 0 ->
  read_config (write_config cfg) = Ok v ->
  nth_error sets k = Some s -> nth_error ms k = Some m -> vs_reps s = r1 :: rs -> In (vs_type s) ["video"; "audio"] ->
  segments_of r1 (md_timescale m) (vd_first cfg) l -> contiguous l ->
  l = s0 :: rest -> s_start s0 = 0 -> s_end (last l s0) = vd_n cfg * vd_duration cfg * md_timescale m ->
  exists entry tab, In (vs_type s, entry) (v_media v) /\
    (forall other, In (vs_type s, other) (v_media v) -> other = entry) /\
    m_dat entry = Some (md_dat m) /\ read_table (md_table m) = Ok tab /\
    let g := generator (update_with_vodcfg c v) (m_timescale entry) tab in
    tg_timescale g = md_timescale m /\
    table_segs (tg_table g) = map (fun x => (s_start x, s_dur x)) l /\ gen_ok g /\ on_grid g (v_dur v).
Proof.
  intros base sets cfg ms v c k s m r1 rs l s0 rest A N B P D R E1 E2 V T S C L Z X.
  destruct (C54_roundtrip_partial_pf base sets cfg ms A N B P D) as (v' & R' & _ & _ & F & _ & ND & M).
  rewrite R in R'. injection R' as <-. destruct (M k s m E1 E2 T) as (I & _).
  destruct (C66_generator_pf base sets cfg ms v c k s m r1 rs l s0 rest A N R E1 E2 V S C L Z X) as (tab & Q & G).
  eexists. exists tab. split; [exact I|]. split; [|split; [reflexivity|]].
  - intros other O. clear - ND I O. induction (v_media v) as [|(t, e) q IH]; [destruct I|]. cbn in ND. inversion ND as [|? ? N1 N2]; subst.
    destruct I as [I|I], O as [O|O]; try congruence.
    + injection I as -> ->. destruct (N1 (in_map fst _ _ O)).
    + injection O as -> ->. destruct (N1 (in_map fst _ _ I)).
    + apply IH; assumption.
  - split; [exact Q|]. cbn zeta in G |- *. rewrite F. split; [reflexivity|exact G].
Qed.
Example C66_server_case : exists v, read_config (write_config ex_vod_data) = Ok v /\ vd_duration ex_vod_data <> 0 /\
  In ("video", mkMedia 1000 ["V300"; "V600"] (Some 6000) (Some "content_video.dat")) (v_media v).
Proof. eexists. split; [vm_compute; reflexivity|]. split; [discriminate|]. vm_compute. auto. Qed.
