(** The tables of the analyzer as the timeline generator needs them. *)
From Coq Require Import Permutation ZifyBool ZifyNat.
From Verif Require Import Base BaseProofs BytesModel ConfigModel InitModel MediaModel Mp4Model TimelineModel TimelineSpec
  VodModel VodSpec VodProofs VodProofs2.
Local Open Scope string_scope.
Open Scope Z_scope.

Fixpoint ending (st : Z) (l : list seg) : Z := match l with [] => st | s :: r => ending (s_end s) r end.
Lemma numbered_app : forall a b nr, numbered nr (a ++ b)%list -> numbered nr a /\ numbered (nr + Z.of_nat (List.length a)) b.
Proof.
  intros a b. induction a as [|s a IH]; intros nr H; cbn [app numbered List.length] in *.
  - split; [exact I|]. rewrite Z.add_0_r. exact H.
  - destruct H as (E & H). destruct (IH _ H) as (A & B). split; [auto|]. replace (nr + Z.of_nat (S (List.length a))) with (nr + 1 + Z.of_nat (List.length a)) by lia. exact B.
Qed.
Lemma chain_app : forall a b st, chain st (a ++ b)%list -> chain st a /\ chain (ending st a) b.
Proof.
  intros a b. induction a as [|s a IH]; intros st H; cbn [app ending] in *.
  - split; [split; exact I|exact H].
  - destruct H as ((P & C & N) & E). assert (K : chain (s_end s) (a ++ b)%list) by (split; [exact C|exact N]).
    destruct (IH _ K) as ((A1 & A2) & B). split; [|exact B]. split; [|exact E]. cbn [contiguous]. split; [exact P|]. split; [exact A1|exact A2].
Qed.
Lemma ending_app : forall a b st, ending st (a ++ b)%list = ending (ending st a) b.
Proof. intros a b. induction a as [|s a IH]; intros st; [reflexivity|]. cbn. apply IH. Qed.
Lemma expand_first : forall e, 0 <= e_rep e -> exists r, expand e = (e_nr e, e_start e, e_dur e) :: r.
Proof.
  intros e H. unfold expand. replace (Z.to_nat (e_rep e + 1)) with (S (Z.to_nat (e_rep e))) by lia. cbn [seq map].
  change (Z.of_nat 0) with 0. rewrite Z.mul_0_l, !Z.add_0_r. eexists. reflexivity.
Qed.
Lemma expand_ending : forall e st, 0 <= e_rep e -> ending st (expand e) = e_start e + (e_rep e + 1) * e_dur e.
Proof.
  intros e st H. unfold expand. assert (G : forall n k st, ending st (map (fun k => (e_nr e + Z.of_nat k, e_start e + Z.of_nat k * e_dur e, e_dur e)) (seq k (S n))) = e_start e + (Z.of_nat k + Z.of_nat n + 1) * e_dur e).
  { intros n. induction n as [|n IH]; intros k st0.
    - cbn. unfold s_end, s_start, s_dur. cbn. lia.
    - cbn [seq map ending]. specialize (IH (S k) 0). cbn [seq map ending] in IH. rewrite IH. lia. }
  replace (Z.to_nat (e_rep e + 1)) with (S (Z.to_nat (e_rep e))) by lia. rewrite G. f_equal. f_equal. lia.
Qed.
Lemma expand_length : forall e, 0 <= e_rep e -> Z.of_nat (List.length (expand e)) = e_rep e + 1.
Proof. intros e H. unfold expand. rewrite map_length, seq_length. lia. Qed.
Lemma expansion_covers : forall tab nr st, Forall in_range tab -> numbered nr (expansion tab) -> chain st (expansion tab) ->
  covers tab nr st (nr + Z.of_nat (List.length (expansion tab))) (ending st (expansion tab)).
Proof.
  intros tab. induction tab as [|e tab IH]; intros nr st F N C.
  - cbn. lia.
  - inversion F as [|? ? F1 F2]; subst. destruct F1 as (_ & (R & _) & _ & _).
    change (expansion (e :: tab)) with (expand e ++ expansion tab)%list in *.
    destruct (numbered_app _ _ _ N) as (N1 & N2). destruct (chain_app _ _ _ C) as (C1 & C2).
    destruct (expand_first e R) as (r & E). rewrite app_length, Nat2Z.inj_add, ending_app. rewrite expand_ending in * by exact R. rewrite expand_length in * by exact R.
    rewrite E in N1, C1. destruct N1 as (N1 & _). destruct C1 as ((C3 & _) & C4). cbn in N1, C3, C4. cbn [covers].
    split; [exact N1|]. split; [exact C4|]. split; [exact R|]. split; [exact C3|]. subst nr st.
    replace (e_nr e + (e_rep e + 1 + Z.of_nat (List.length (expansion tab)))) with (e_nr e + e_rep e + 1 + Z.of_nat (List.length (expansion tab))) by ring.
    apply IH; [exact F2| |exact C2]. replace (e_nr e + e_rep e + 1) with (e_nr e + (e_rep e + 1)) by ring. exact N2.
Qed.
Lemma table_segs_expansion : forall tab, table_segs tab = map (fun s => (s_start s, s_dur s)) (expansion tab).
Proof.
  intros tab. unfold table_segs, expansion. induction tab as [|e tab IH]; [reflexivity|]. cbn [flat_map]. rewrite map_app, IH. f_equal.
  unfold run_segs, expand. rewrite map_map. reflexivity.
Qed.
Lemma ending_last : forall l st s0 r, l = s0 :: r -> ending st l = s_end (last l s0).
Proof.
  intros l. induction l as [|s l IH]; intros st s0 r E; [discriminate|]. injection E as <- _. cbn [ending]. destruct l as [|q l]; [reflexivity|].
  rewrite (IH _ q l eq_refl). cbn [last]. f_equal. destruct l; [reflexivity|]. apply last_any. discriminate.
Qed.

(** Loop data of a configuration that was read. *)
Lemma setup_back : forall cfg v, read_config (write_config cfg) = Ok v ->
  v_first v = vd_first cfg /\ v_n v = vd_n cfg /\ v_dur v = vd_duration cfg /\ vd_duration cfg <> 0.
Proof.
  intros cfg v H. unfold read_config in H.
  assert (S : assoc "Setup" (write_config cfg) = Some [("default_tsbd_secs", print_Z (vd_tsbd cfg));
                ("segment_duration_s", print_Z (vd_duration cfg));
                ("nr_segments_in_loop", print_Z (vd_n cfg));
                ("first_segment_in_loop", print_Z (vd_first cfg))]) by reflexivity.
  assert (G : ini_get (write_config cfg) "General" "version" = Ok "1.1") by reflexivity.
  rewrite G in H. cbn [bind] in H. change (str_in "1.1" ["1.0"; "1.1"]) with true in H. cbv iota in H.
  assert (I1 : ini_int (write_config cfg) "Setup" "first_segment_in_loop" = Ok (vd_first cfg)) by (apply int_back; unfold ini_get; rewrite S; reflexivity).
  assert (I2 : ini_int (write_config cfg) "Setup" "segment_duration_s" = Ok (vd_duration cfg)) by (apply int_back; unfold ini_get; rewrite S; reflexivity).
  assert (I3 : ini_int (write_config cfg) "Setup" "nr_segments_in_loop" = Ok (vd_n cfg)) by (apply int_back; unfold ini_get; rewrite S; reflexivity).
  assert (I4 : ini_int (write_config cfg) "Setup" "default_tsbd_secs" = Ok (vd_tsbd cfg)) by (apply int_back; unfold ini_get; rewrite S; reflexivity).
  assert (I5 : ini_int (write_config cfg) "Setup" "segment_duration_ms" = Err "NoOptionError") by (unfold ini_int, ini_get; rewrite S; reflexivity).
  rewrite I1 in H. cbn [bind] in H. rewrite I2 in H. cbn [bind] in H. rewrite I5 in H. cbn [bind String.eqb Ascii.eqb Bool.eqb] in H.
  destruct (Z.eqb_spec (vd_duration cfg) 0) as [|D]; [discriminate|]. cbn [andb] in H. rewrite I3 in H. cbn [bind] in H. rewrite I4 in H. cbn [bind] in H.
  apply bind_ok in H. destruct H as (md & _ & H). injection H as <-. auto.
Qed.

Lemma generator_fed : forall base sets cfg ms v c k s m r1 rs l s0 rest,
  analyze base sets = Ok (cfg, ms) -> named sets -> read_config (write_config cfg) = Ok v ->
  nth_error sets k = Some s -> nth_error ms k = Some m -> vs_reps s = r1 :: rs ->
  segments_of r1 (md_timescale m) (vd_first cfg) l -> contiguous l ->
  l = s0 :: rest -> s_start s0 = 0 -> s_end (last l s0) = vd_n cfg * vd_duration cfg * md_timescale m ->
  exists tab, read_table (md_table m) = Ok tab /\
    let g := generator (update_with_vodcfg c v) (md_timescale m) tab in
    table_segs (tg_table g) = map (fun x => (s_start x, s_dur x)) l /\ gen_ok g /\ on_grid g (vd_duration cfg).
Proof.
  intros base sets cfg ms v c k s m r1 rs l s0 rest H FN RC S M RS SG CT L0 Z0 EN.
  destruct (setup_back _ _ RC) as (V1 & V2 & V3 & D).
  destruct (analyze_facts _ _ _ _ H FN) as (ns & n0 & ns' & _ & R & _ & _ & _ & _).
  destruct (results_nth _ _ _ _ _ R _ _ _ S M) as (n & _ & SR).
  destruct SR as (_ & _ & _ & (r1' & rs' & l' & RS' & SG' & _ & _ & TB) & FR).
  rewrite RS in RS'. injection RS' as <- <-. destruct (segments_det _ _ _ _ _ _ SG SG') as (<- & _).
  destruct (TB CT) as (tab & T1 & T2 & T3). clear TB. exists tab. split; [exact T1|]. cbn zeta.
  assert (NG : near_grid (md_timescale m) (vd_duration cfg) l).
  { rewrite RS in FR. inversion FR as [|? ? (l' & A & B) _]; subst. destruct (segments_det _ _ _ _ _ _ SG A) as (<- & _). exact B. }
  assert (G : generator (update_with_vodcfg c v) (md_timescale m) tab = mk_tgen (md_timescale m) tab (vd_duration cfg * vd_n cfg * md_timescale m) (vd_n cfg) (vd_first cfg)).
  { rewrite <- V1, <- V2, <- V3. unfold generator, update_with_vodcfg. destruct (c_tsbd c); reflexivity. }
  rewrite G. clear G. cbn [tg_table]. rewrite table_segs_expansion, T2.
  assert (LN : List.length l <> O) by (rewrite L0; discriminate).
  assert (TS : 0 < md_timescale m).
  { assert (X : nth_error l 0 = Some s0) by (rewrite L0; reflexivity). pose proof (NG _ _ L0 _ _ X). lia. }
  assert (LEN : Z.of_nat (List.length l) = vd_n cfg).
  { assert (X : nth_error l (List.length l - 1) = Some (last l s0)).
    { rewrite L0. clear. cbn [List.length]. rewrite Nat.sub_succ, Nat.sub_0_r. revert s0. induction rest as [|q r IH]; intros s0; [reflexivity|].
      cbn [List.length nth_error]. rewrite IH. f_equal. cbn [last]. destruct r; [reflexivity|]. apply last_any. discriminate. }
    pose proof (NG _ _ L0 _ _ X) as Y. rewrite EN, Z0 in Y.
    replace (Z.of_nat (List.length l - 1) + 1) with (Z.of_nat (List.length l)) in Y by lia.
    set (a := Z.of_nat (List.length l)) in *. set (t := md_timescale m) in *. set (d := vd_duration cfg) in *. clearbody a t d.
    replace (0 + a * d * t - vd_n cfg * d * t) with ((a - vd_n cfg) * d * t) in Y by ring. rewrite !Z.abs_mul, (Z.abs_eq t) in Y by lia.
    clear -Y D TS. destruct (Z.eq_dec a (vd_n cfg)) as [|NE]; [assumption|exfalso]. assert (1 <= Z.abs (a - vd_n cfg)) by lia. assert (1 <= Z.abs d) by lia.
    assert (1 <= Z.abs (a - vd_n cfg) * Z.abs d) by nia. nia. }
  split; [reflexivity|]. split.
  - split; [|split; [exact TS|]].
    + cbn. intros ->. rewrite <- T2 in LN. apply LN. reflexivity.
    + cbn. assert (CH : chain 0 l) by (split; [exact CT|rewrite L0; exact Z0]).
      destruct SG as (_ & NB & _). rewrite <- T2 in CH, NB. pose proof (expansion_covers tab _ _ T3 NB CH) as CV.
      rewrite T2, LEN, (ending_last l 0 _ _ L0), EN in CV. replace (vd_duration cfg * vd_n cfg * md_timescale m) with (vd_n cfg * vd_duration cfg * md_timescale m) by ring. exact CV.
  - split; [reflexivity|]. cbn [tg_per_wrap tg_timescale]. intros j J.
    unfold live_end, live_seg. cbn [tg_table tg_wrap]. rewrite table_segs_expansion, T2, map_length, LEN.
    rewrite Z.mod_small, Z.div_small by lia.
    destruct (nth_error l (Z.to_nat j)) as [x|] eqn:X; [|apply nth_error_None in X; lia].
    assert (E : nth (Z.to_nat j) (map (fun x => (s_start x, s_dur x)) l) (0, 0) = (s_start x, s_dur x)).
    { apply nth_error_nth. rewrite nth_error_map, X. reflexivity. }
    rewrite E. cbn [fst snd]. pose proof (NG _ _ L0 _ _ X) as Y. rewrite Z0 in Y. unfold s_end in Y. replace (Z.of_nat (Z.to_nat j)) with j in Y by lia. lia.
Qed.

(** *** Refusal *)
Lemma nth_error_Some_length : forall A (l : list A) k x, nth_error l k = Some x -> (k < List.length l)%nat.
Proof. intros A l k x H. apply nth_error_Some. congruence. Qed.
Lemma segments_first : forall r ts ts' first first' l l', segments_of r ts first l -> segments_of r ts' first' l' -> first = first'.
Proof.
  intros r ts ts' first first' l l' (NE & N & P & _) (NE' & N' & P' & _).
  assert (Q : Permutation (count_up first (List.length l)) (count_up first' (List.length l'))).
  { rewrite <- (numbered_count _ _ N), <- (numbered_count _ _ N'). eapply Permutation_trans; [symmetry; exact P|exact P']. }
  destruct l as [|x l]; [contradiction|]. destruct l' as [|x' l']; [contradiction|].
  assert (A : In first (count_up first' (List.length (x' :: l')))) by (eapply Permutation_in; [exact Q|left; reflexivity]).
  assert (B : In first' (count_up first (List.length (x :: l)))) by (eapply Permutation_in; [symmetry; exact Q|left; reflexivity]).
  apply count_in in A. apply count_in in B. lia.
Qed.
Lemma expand_durs : forall e x, In x (expand e) -> s_dur x = e_dur e.
Proof. intros e x H. unfold expand in H. apply in_map_iff in H. destruct H as (k & <- & _). reflexivity. Qed.
Lemma last_in : forall A (l : list A) d, l <> [] -> In (last l d) l.
Proof.
  intros A l d. induction l as [|x l IH]; intros N; [contradiction|]. destruct l as [|y l]; [left; reflexivity|].
  right. apply IH. discriminate.
Qed.
Lemma run_start : forall tab a x b, Forall in_range tab -> expansion tab = (a ++ x :: b)%list ->
  (exists e, In e tab /\ (e_nr e, e_start e, e_dur e) = x) \/ (a <> [] /\ s_dur (last a x) = s_dur x).
Proof.
  intros tab. induction tab as [|e tab IH]; intros a x b F E.
  - destruct a; discriminate.
  - inversion F as [|? ? F1 F2]; subst. destruct F1 as (_ & (R & _) & _).
    change (expansion (e :: tab)) with (expand e ++ expansion tab)%list in E.
    destruct (le_lt_dec (List.length (expand e)) (List.length a)) as [L|L].
    + assert (K : exists a', a = (expand e ++ a')%list /\ expansion tab = (a' ++ x :: b)%list).
      { clear -E L. revert a E L. induction (expand e) as [|y l IH]; intros a E L; [exists a; auto|].
        destruct a as [|z a]; [cbn in L; lia|]. cbn [app List.length] in *. injection E as <- E.
        destruct (IH a E ltac:(lia)) as (a' & -> & K). exists a'. auto. }
      destruct K as (a' & -> & K). destruct (IH _ _ _ F2 K) as [(e' & I & Q)|(NE & Q)].
      * left. exists e'. split; [right; exact I|exact Q].
      * right. split; [intros Z; apply app_eq_nil in Z; destruct Z; contradiction|].
        rewrite <- Q. f_equal. clear -NE. induction (expand e) as [|y l IH]; [reflexivity|]. cbn [app last]. destruct (l ++ a')%list eqn:Z; [apply app_eq_nil in Z; destruct Z; contradiction|]. exact IH.
    + destruct a as [|z a].
      * left. exists e. split; [left; reflexivity|]. destruct (expand_first e R) as (r & X). rewrite X in E. cbn [app] in E. injection E as E _. exact E.
      * right. split; [discriminate|].
        assert (K : In x (expand e) /\ forall y, In y (z :: a) -> In y (expand e)).
        { clear -E L. revert E L. generalize (z :: a). clear z a. induction (expand e) as [|y l IH]; intros a E L; [cbn in L; lia|].
          destruct a as [|z a]; cbn [app List.length] in *.
          - injection E as -> _. split; [left; reflexivity|intros y []].
          - injection E as <- E. destruct (IH a E ltac:(lia)) as (A & B). split; [right; exact A|]. intros q [<-|Q]; [left; reflexivity|right; auto]. }
        destruct K as (K1 & K2). rewrite (expand_durs _ _ K1). apply expand_durs. apply K2. apply last_in. discriminate.
Qed.
