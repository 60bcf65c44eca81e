(** C79. *)
From Verif Require Import Base BaseProofs BytesModel BytesProofs BoxSpec Mp4Proofs ChunkModel TablesModel TablesSpec TablesProofs.
From Coq Require Import Lia ZArith List.
Import ListNotations.
Open Scope Z_scope.

Lemma repeat_tail : forall A (x : A) a b, a ++ b = repeat x (List.length (a ++ b)) -> b = repeat x (List.length b).
Proof. induction a as [|y a IH]; intros b H; [exact H|]. cbn [app List.length repeat] in H. apply (f_equal (@tl A)) in H. cbn [tl] in H. apply IH. exact H. Qed.
Lemma stts_read : forall data o runs, in_file data o (time_table runs) -> runs_ok runs ->
  stts_at data o = Ok (mk_stts (count runs) (cums 0 runs) (starts 1 (map fst runs))).
Proof.
  intros data o runs H (U & C). unfold stts_at. unfold time_table in H. rewrite rows_flat in H.
  rewrite (full_ok _ _ _ _ _ H eq_refl). cbn [bind].
  rewrite (u32_read data o (bstr "stts") [0; 0; 0; 0] (count runs) (flat_map be32 (flat runs)) (o + 12) H eq_refl C) by (change (blen [0; 0; 0; 0]) with 4; lia).
  cbn [bind].
  rewrite (read32 data o (bstr "stts") ([0; 0; 0; 0] ++ be32 (count runs)) (flat runs) (2 * count runs) (o + 16));
    [|rewrite <- app_assoc; exact H|reflexivity|apply flat_u32; exact U|symmetry; apply flat_count|rewrite blen_app, blen_be32; change (blen [0; 0; 0; 0]) with 4; lia].
  cbn [bind]. rewrite stts_rows_ok. reflexivity.
Qed.
(** Decoding time and duration of a sample *)
Lemma C79_time_pf : forall data o runs l1 d l2, in_file data o (time_table runs) -> runs_ok runs -> expand runs = l1 ++ d :: l2 ->
  exists t, stts_at data o = Ok t /\ sample_time_and_duration t (count l1 + 1) = Ok (sum l1, d).
Proof.
  intros data o runs l1 d l2 H R E. eexists. split; [apply stts_read; eassumption|]. destruct R as (U & _).
  destruct (split_runs _ _ _ _ E) as (A & c & B & k & -> & -> & K). pose proof (runs_nonneg _ U) as N. pose proof (runs_nonneg' _ N) as N'.
  apply Forall_app in N. destruct N as (NA & _). rewrite map_app in N'. cbn [map fst] in N'.
  assert (C1 : count (expand A ++ repeat d k) = sum (map fst A) + Z.of_nat k) by (rewrite count_app, count_repeat, count_expand by exact NA; reflexivity).
  rewrite C1, sum_app, sum_repeat, sum_expand by exact NA.
  unfold sample_time_and_duration. cbn [st_count st_lookup st_entries]. rewrite map_app. cbn [map fst].
  assert (CM : count (map fst A) = count A) by (unfold count; rewrite map_length; reflexivity).
  destruct (find_run (map fst A) c (map fst B) (sum (map fst A) + Z.of_nat k + 1) (count (A ++ (c, d) :: B)) N') as (Q1 & Q2).
  - lia.
  - rewrite !count_app, !count_cons. unfold count. rewrite !map_length. reflexivity.
  - rewrite Q1. cbn [bind]. rewrite CM in *. replace (count A + 1 - 1) with (count A) by lia. rewrite Q2. cbn [bind].
    rewrite cums_app. cbn [cums]. rewrite idx_mid by (rewrite cums_count; reflexivity). cbn [bind snd fst]. f_equal. f_equal. lia.
Qed.

Lemma ctts_read : forall data o v runs, in_file data o (offset_table v runs) -> runs_ok runs ->
  ctts_at data o = Ok (mk_ctts (count runs) runs (starts 1 (map fst runs))).
Proof.
  intros data o v runs H (U & C). unfold ctts_at. unfold offset_table in H.
  replace (flat_map (fun r => be32 (fst r) ++ be32 (snd r mod 4294967296)) runs) with (flat_map be32 (flat runs)) in H.
  2:{ rewrite <- rows_flat. unfold rows. clear - U. induction U as [|r runs (_ & A) _ IH]; [reflexivity|]. cbn [flat_map].
      rewrite IH, Z.mod_small by exact A. reflexivity. }
  rewrite (full_ok _ _ _ _ _ H eq_refl). cbn [bind].
  rewrite (u32_read data o (bstr "ctts") [v; 0; 0; 0] (count runs) (flat_map be32 (flat runs)) (o + 12) H eq_refl C) by (change (blen [v; 0; 0; 0]) with 4; lia).
  cbn [bind].
  rewrite (read32 data o (bstr "ctts") ([v; 0; 0; 0] ++ be32 (count runs)) (flat runs) (2 * count runs) (o + 16));
    [|rewrite <- app_assoc; exact H|reflexivity|apply flat_u32; exact U|symmetry; apply flat_count|rewrite blen_app, blen_be32; change (blen [v; 0; 0; 0]) with 4; lia].
  cbn [bind]. rewrite ctts_rows_ok. reflexivity.
Qed.
(** Composition offset of a sample.  Not covered: negative offsets. *)
Lemma C79_offset_partial_pf : forall data o v runs l1 x l2, in_file data o (offset_table v runs) -> runs_ok runs -> expand runs = l1 ++ x :: l2 ->
  exists t, ctts_at data o = Ok t /\ sample_offset t (count l1 + 1) = Ok x.
Proof.
  intros data o v runs l1 x l2 H R E. eexists. split; [eapply ctts_read; eassumption|]. destruct R as (U & _).
  destruct (split_runs _ _ _ _ E) as (A & c & B & k & -> & -> & K). pose proof (runs_nonneg _ U) as N. pose proof (runs_nonneg' _ N) as N'.
  apply Forall_app in N. destruct N as (NA & _). rewrite map_app in N'. cbn [map fst] in N'.
  assert (C1 : count (expand A ++ repeat x k) = sum (map fst A) + Z.of_nat k) by (rewrite count_app, count_repeat, count_expand by exact NA; reflexivity).
  rewrite C1.
  unfold sample_offset. cbn [ct_count ct_lookup ct_entries]. rewrite map_app. cbn [map fst].
  assert (CM : count (map fst A) = count A) by (unfold count; rewrite map_length; reflexivity).
  destruct (find_run (map fst A) c (map fst B) (sum (map fst A) + Z.of_nat k + 1) (count (A ++ (c, x) :: B)) N') as (Q1 & Q2).
  - lia.
  - rewrite !count_app, !count_cons. unfold count. rewrite !map_length. reflexivity.
  - rewrite Q1. cbn [bind]. rewrite CM in *. replace (count A + 1 - 1) with (count A) by lia.
    rewrite idx_mid by reflexivity. reflexivity.
Qed.

(** Sync samples *)
Lemma C79_sync_pf : forall data o l, in_file data o (sync_table l) -> Forall u32 l -> u32 (count l) ->
  exists t, stss_at data o = Ok t /\ forall n, has_index t n = true <-> In n l.
Proof.
  intros data o l H U C. exists l. split.
  - unfold stss_at. rewrite (full_ok _ _ _ _ _ H eq_refl). cbn [bind].
    rewrite (u32_read data o (bstr "stss") [0; 0; 0; 0] (count l) (flat_map be32 l) (o + 12) H eq_refl C) by (change (blen [0; 0; 0; 0]) with 4; lia).
    cbn [bind]. apply (read32 data o (bstr "stss") ([0; 0; 0; 0] ++ be32 (count l)) l (count l) (o + 16));
      [rewrite <- app_assoc; exact H|reflexivity|exact U|reflexivity|rewrite blen_app, blen_be32; change (blen [0; 0; 0; 0]) with 4; lia].
  - intros n. unfold has_index. rewrite existsb_exists. split.
    + intros (x & I & E). apply Z.eqb_eq in E. subst. exact I.
    + intros I. exists n. split; [exact I|apply Z.eqb_refl].
Qed.

(** Place and size of a sample *)
Lemma C79_place_pf : forall data o_stsc o_stsz o_stco es tsz tr t1 c t2 s1 s s2,
  in_file data o_stsc (chunk_table es) -> chunks_are es (map (fun c => count (c_sizes c)) tr) ->
  in_file data o_stsz tsz -> sizes_are tsz (all_sizes tr) ->
  (in_file data o_stco (start_table (map c_start tr)) /\ Forall u32 (map c_start tr) \/
   in_file data o_stco (long_start_table (map c_start tr)) /\ Forall u64 (map c_start tr)) -> u32 (count tr) ->
  tr = t1 ++ c :: t2 -> c_sizes c = s1 ++ s :: s2 ->
  let number := count (all_sizes t1) + count s1 + 1 in
  exists sc sz co, stsc_at data o_stsc = Ok sc /\ stsz_at data o_stsz = Ok sz /\ (stco_at data o_stco = Ok co \/ co64_at data o_stco = Ok co) /\
    chunk_and_index sc number = Ok (count t1 + 1, count s1) /\ chunk_offset co (count t1 + 1) = c_start c /\
    sample_size_and_offset sz number (count s1) (c_start c) = Ok (s, c_start c + sum s1).
Proof.
  intros data osc osz oco es tsz tr t1 c t2 s1 s s2 Hc Rc Hz Rz Ho Ct Et Es number.
  set (lens := map (fun c => count (c_sizes c)) tr) in *.
  exists (mk_stsc (count es) (map fst es) (starts 1 (prods (cruns (count lens) es)))).
  assert (Z1 : exists sz, stsz_at data osz = Ok sz /\ sample_size_and_offset sz number (count s1) (c_start c) = Ok (s, c_start c + sum s1)).
  { assert (EA : all_sizes tr = all_sizes t1 ++ s1 ++ s :: s2 ++ all_sizes t2)
      by (rewrite Et; unfold all_sizes; rewrite flat_map_app; cbn [flat_map]; rewrite Es, <- !app_assoc; reflexivity).
    inversion Rz as [x n X U N Eb El|l U N Eb El]; subst tsz.
    - exists (mk_stsz x [] []). split.
      + unfold stsz_at. rewrite (full_ok _ _ _ _ _ Hz eq_refl). cbn [bind].
        rewrite (u32_read data osz (bstr "stsz") [0; 0; 0; 0] x (be32 (Z.of_nat n) ++ []) (osz + 12) Hz eq_refl U) by (change (blen [0; 0; 0; 0]) with 4; lia).
        cbn [bind]. rewrite (u32_read data osz (bstr "stsz") ([0; 0; 0; 0] ++ be32 x) (Z.of_nat n) [] (osz + 16));
          [|rewrite <- app_assoc; exact Hz|reflexivity|exact N|rewrite blen_app, blen_be32; change (blen [0; 0; 0; 0]) with 4; lia].
        cbn [bind]. destruct (Z.eqb_spec x 0); [contradiction|reflexivity].
      + rewrite EA in El. rewrite app_assoc in El. destruct (split_repeat _ _ _ _ _ _ El) as (-> & R & _).
        unfold sample_size_and_offset. cbn [sz_size]. destruct (Z.eqb_spec x 0); [contradiction|]. cbn [negb]. f_equal. f_equal. f_equal.
        assert (R' : s1 = repeat x (List.length s1)).
        { exact (repeat_tail _ x _ _ R). }
        assert (S1 : sum s1 = count s1 * x) by (rewrite R' at 1; apply sum_repeat). rewrite S1. ring.
    - subst l. exists (mk_stsz 0 (all_sizes tr) (accumulate 0 (all_sizes tr))). split.
      + unfold stsz_at. rewrite (full_ok _ _ _ _ _ Hz eq_refl). cbn [bind].
        rewrite (u32_read data osz (bstr "stsz") [0; 0; 0; 0] 0 (be32 (count (all_sizes tr)) ++ flat_map be32 (all_sizes tr)) (osz + 12) Hz eq_refl)
          by (first [unfold TablesSpec.u32; lia|change (blen [0; 0; 0; 0]) with 4; lia]).
        cbn [bind]. rewrite (u32_read data osz (bstr "stsz") ([0; 0; 0; 0] ++ be32 0) (count (all_sizes tr)) (flat_map be32 (all_sizes tr)) (osz + 16));
          [|rewrite <- app_assoc; exact Hz|reflexivity|exact N|rewrite blen_app, blen_be32; change (blen [0; 0; 0; 0]) with 4; lia].
        cbn [bind]. change (0 =? 0) with true. cbv iota.
        rewrite (read32 data osz (bstr "stsz") ([0; 0; 0; 0] ++ be32 0 ++ be32 (count (all_sizes tr))) (all_sizes tr) (count (all_sizes tr)) (osz + 20));
          [reflexivity|rewrite <- !app_assoc; exact Hz|reflexivity|exact U|reflexivity|rewrite !blen_app, !blen_be32; change (blen [0; 0; 0; 0]) with 4; lia].
      + unfold sample_size_and_offset. cbn [sz_size sz_sums sz_sizes]. change (negb (0 =? 0)) with false. cbv iota. unfold number. rewrite EA.
        rewrite app_assoc. rewrite acc_idx by (rewrite count_app; lia). cbn [bind]. rewrite <- app_assoc.
        destruct (s1 ++ s :: s2 ++ all_sizes t2) as [|y r] eqn:Q; [destruct s1; discriminate|].
        rewrite acc_idx by lia. cbn [bind]. rewrite <- Q, app_assoc. rewrite idx_mid by (rewrite count_app; lia).
        cbn [bind]. rewrite sum_app. f_equal. f_equal. lia. }
  destruct Z1 as (sz & Z1 & Z2). exists sz, (map c_start tr). split; [|split; [exact Z1|split; [|split; [|split; [|exact Z2]]]]].
  - destruct Rc as (U & C & _). unfold stsc_at. unfold chunk_table in Hc. rewrite flat3_bytes in Hc.
    rewrite (full_ok _ _ _ _ _ Hc eq_refl). cbn [bind].
    rewrite (u32_read data osc (bstr "stsc") [0; 0; 0; 0] (count es) (flat_map be32 (flat3 es)) (osc + 12) Hc eq_refl C) by (change (blen [0; 0; 0; 0]) with 4; lia).
    cbn [bind].
    rewrite (read32 data osc (bstr "stsc") ([0; 0; 0; 0] ++ be32 (count es)) (flat3 es) (3 * count es) (osc + 16));
      [|rewrite <- app_assoc; exact Hc|reflexivity|apply flat3_u32; exact U|symmetry; apply flat3_count|rewrite blen_app, blen_be32; change (blen [0; 0; 0; 0]) with 4; lia].
    cbn [bind]. rewrite (stsc_rows_ok (count lens)). reflexivity.
  - assert (Cm : count (map c_start tr) = count tr) by (unfold count; rewrite map_length; reflexivity).
    destruct Ho as [(Ho & U)|(Ho & U)]; [left|right].
    + unfold stco_at. rewrite (full_ok _ _ _ _ _ Ho eq_refl). cbn [bind].
      rewrite (u32_read data oco (bstr "stco") [0; 0; 0; 0] (count (map c_start tr)) (flat_map be32 (map c_start tr)) (oco + 12) Ho eq_refl)
        by (first [rewrite Cm; exact Ct|change (blen [0; 0; 0; 0]) with 4; lia]).
      cbn [bind]. apply (read32 data oco (bstr "stco") ([0; 0; 0; 0] ++ be32 (count (map c_start tr))));
        [rewrite <- app_assoc; exact Ho|reflexivity|exact U|reflexivity|rewrite blen_app, blen_be32; change (blen [0; 0; 0; 0]) with 4; lia].
    + unfold co64_at. rewrite (full_ok _ _ _ _ _ Ho eq_refl). cbn [bind].
      rewrite (u32_read data oco (bstr "co64") [0; 0; 0; 0] (count (map c_start tr)) (flat_map be64 (map c_start tr)) (oco + 12) Ho eq_refl)
        by (first [rewrite Cm; exact Ct|change (blen [0; 0; 0; 0]) with 4; lia]).
      cbn [bind]. apply (read64 data oco (bstr "co64") ([0; 0; 0; 0] ++ be32 (count (map c_start tr))));
        [rewrite <- app_assoc; exact Ho|reflexivity|exact U|reflexivity|rewrite blen_app, blen_be32; change (blen [0; 0; 0; 0]) with 4; lia].
  - assert (EL : lens = map (fun c => count (c_sizes c)) t1 ++ count (c_sizes c) :: map (fun c => count (c_sizes c)) t2)
      by (unfold lens; rewrite Et, map_app; reflexivity).
    assert (S1 : forall l, sum (map (fun c => count (c_sizes c)) l) = count (all_sizes l)).
    { induction l as [|x l IH]; [reflexivity|]. cbn [map sum all_sizes flat_map]. fold (all_sizes l). rewrite count_app, IH. reflexivity. }
    assert (C1 : count (map (fun c => count (c_sizes c)) t1) = count t1) by (unfold count; rewrite map_length; reflexivity).
    unfold number. rewrite <- S1, <- C1. apply chunk_ok with (1 := Rc) (2 := EL).
    pose proof (count_nonneg _ s1). pose proof (count_nonneg _ s2). rewrite Es, count_app, count_cons. lia.
  - unfold chunk_offset. replace (count t1 + 1 - 1) with (count t1) by lia. rewrite Et, map_app. cbn [map].
    rewrite idx_mid by (unfold count; rewrite map_length; reflexivity). reflexivity.
Qed.

(** A negative offset (version 1) is read as a large one. *)
Lemma C79_negative_refuted_pf : exists data o runs l1 x l2 t, in_file data o (offset_table 1 runs) /\
  Forall (fun r => u32 (fst r) /\ -2147483648 <= snd r < 2147483648) runs /\ expand runs = l1 ++ x :: l2 /\
  ctts_at data o = Ok t /\ sample_offset t (count l1 + 1) <> Ok x.
Proof.
  exists (enc (offset_table 1 [(2, 0); (1, -1024)])), 0, [(2, 0); (1, -1024)], [0; 0], (-1024), [].
  eexists. split; [exists [], []; split; [rewrite app_nil_r; reflexivity|reflexivity]|].
  split; [repeat constructor; cbn; lia|]. split; [reflexivity|]. split; [vm_compute; reflexivity|]. vm_compute. discriminate.
Qed.
(** A sample that the track does not have gets a time too: number 0 that of an
    earlier sample, and one after the last as if there were more. *)
Lemma C79_outside_refuted_pf : exists data o runs t, in_file data o (time_table runs) /\ runs_ok runs /\ count (expand runs) = 3 /\
  stts_at data o = Ok t /\ sample_time_and_duration t 0 = Ok (8, 4) /\ sample_time_and_duration t 5 = Ok (28, 4).
Proof.
  exists (enc (time_table [(2, 10); (1, 4)])), 0, [(2, 10); (1, 4)]. eexists.
  split; [exists [], []; split; [rewrite app_nil_r; reflexivity|reflexivity]|].
  split; [split; [repeat constructor; cbn; lia|cbv; split; [discriminate|reflexivity]]|]. split; [reflexivity|]. split; [vm_compute; reflexivity|].
  split; vm_compute; reflexivity.
Qed.
Example C79_time_case : in_file ([1; 2] ++ enc (time_table [(2, 10); (1, 4)])) 2 (time_table [(2, 10); (1, 4)]) /\ runs_ok [(2, 10); (1, 4)] /\
  expand [(2, 10); (1, 4)] = [10] ++ 10 :: [4].
Proof.
  split; [exists [1; 2], []; split; [rewrite app_nil_r; reflexivity|reflexivity]|].
  split; [split; [repeat constructor; cbn; lia|cbv; split; [discriminate|reflexivity]]|reflexivity].
Qed.
Example C79_offset_case : in_file ([1; 2] ++ enc (offset_table 0 [(2, 10); (1, 4)])) 2 (offset_table 0 [(2, 10); (1, 4)]) /\ runs_ok [(2, 10); (1, 4)].
Proof.
  split; [exists [1; 2], []; split; [rewrite app_nil_r; reflexivity|reflexivity]|].
  split; [repeat constructor; cbn; lia|cbv; split; [discriminate|reflexivity]].
Qed.
Example C79_sync_case : in_file (enc (sync_table [1; 25])) 0 (sync_table [1; 25]) /\ Forall u32 [1; 25] /\ u32 (count [1; 25]).
Proof.
  split; [exists [], []; split; [rewrite app_nil_r; reflexivity|reflexivity]|]. split; [repeat constructor; cbn; lia|cbv; split; [discriminate|reflexivity]].
Qed.
Definition ex_track : list chunk := [mk_chunk 1000 [5; 6]; mk_chunk 2000 [7; 8]; mk_chunk 300 [9]].
Definition ex_chunks : list entry := [(1, 2, 1); (3, 1, 1)].
Definition ex_tables : bytes := enc (chunk_table ex_chunks) ++ enc (size_table 0 5 [5; 6; 7; 8; 9]) ++ enc (start_table [1000; 2000; 300]).
Example C79_place_case : in_file ex_tables 0 (chunk_table ex_chunks) /\ chunks_are ex_chunks (map (fun c => count (c_sizes c)) ex_track) /\
  in_file ex_tables 40 (size_table 0 5 [5; 6; 7; 8; 9]) /\ sizes_are (size_table 0 5 [5; 6; 7; 8; 9]) (all_sizes ex_track) /\
  in_file ex_tables 80 (start_table (map c_start ex_track)) /\ Forall u32 (map c_start ex_track) /\ u32 (count ex_track) /\
  ex_track = [mk_chunk 1000 [5; 6]] ++ mk_chunk 2000 [7; 8] :: [mk_chunk 300 [9]] /\ c_sizes (mk_chunk 2000 [7; 8]) = [7] ++ 8 :: [].
Proof.
  assert (U : forall x, (0 <=? x) && (x <? 4294967296) = true -> u32 x) by (intros x H; unfold u32; lia).
  split; [eexists []; eexists; split; reflexivity|]. split.
  { split; [repeat constructor; apply U; reflexivity|]. split; [apply U; reflexivity|]. split; [reflexivity|]. split; [cbn; lia|reflexivity]. }
  split; [exists (enc (chunk_table ex_chunks)), (enc (start_table [1000; 2000; 300])); split; reflexivity|].
  split; [apply (sizes_each [5; 6; 7; 8; 9]); [repeat constructor; apply U; reflexivity|apply U; reflexivity]|].
  split; [exists (enc (chunk_table ex_chunks) ++ enc (size_table 0 5 [5; 6; 7; 8; 9])), []; split; reflexivity|].
  split; [repeat constructor; apply U; reflexivity|]. split; [apply U; reflexivity|]. split; reflexivity.
Qed.
