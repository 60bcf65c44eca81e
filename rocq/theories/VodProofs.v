(** Lemmas about VodModel.v. *)
From Coq Require Import Permutation ZifyBool ZifyNat.
From Verif Require Import Base BaseProofs BytesModel BytesProofs ConfigModel InitModel MediaModel TimelineModel VodModel VodSpec.
Local Open Scope string_scope.
Open Scope Z_scope.

(** *** Numbers of files *)
Lemma insert_perm : forall x l, Permutation (x :: l) (insert_nr x l).
Proof.
  intros x l. induction l as [|y l IH]; [reflexivity|]. cbn [insert_nr]. destruct (x <=? y); [reflexivity|].
  rewrite perm_swap. constructor. exact IH.
Qed.
Lemma sort_perm : forall l, Permutation l (sort_nrs l).
Proof. intros l. induction l as [|x l IH]; [reflexivity|]. cbn [sort_nrs]. rewrite <- insert_perm. constructor. exact IH. Qed.
Fixpoint count_up (first : Z) (n : nat) : list Z := match n with O => [] | S k => first :: count_up (first + 1) k end.
Lemma no_gap_count : forall l x r, l = x :: r -> no_gap l = true -> l = count_up x (List.length l).
Proof.
  intros l. induction l as [|x0 l IH]; intros x r E H; [discriminate|]. injection E as <- <-.
  destruct l as [|y l]; [reflexivity|]. cbn [no_gap] in H. apply andb_prop in H. destruct H as (H1 & H2).
  apply Z.eqb_eq in H1. specialize (IH y l eq_refl H2). cbn [List.length count_up] in *. rewrite <- H1. rewrite IH at 1. reflexivity.
Qed.
Lemma last_count : forall n first d, last (count_up first (S n)) d = first + Z.of_nat n.
Proof.
  intros n. induction n as [|n IH]; intros first d; [cbn; lia|].
  change (last (count_up first (S (S n))) d) with (last (count_up (first + 1) (S n)) d). rewrite IH. lia.
Qed.
Lemma range_spec : forall numbers a b, segment_range numbers = Ok (a, b) ->
  exists n, Permutation numbers (count_up a (S n)) /\ b = a + Z.of_nat n.
Proof.
  intros numbers a b H. unfold segment_range in H. destruct (no_gap (sort_nrs numbers)) eqn:G; [|discriminate].
  pose proof (sort_perm numbers) as P. destruct (sort_nrs numbers) as [|x r]; [discriminate|].
  injection H as <- <-. pose proof (no_gap_count _ x r eq_refl G) as E. cbn [List.length] in E. exists (List.length r).
  split; [rewrite <- E; exact P|]. etransitivity; [|apply (last_count (List.length r) x x)]. rewrite <- E. reflexivity.
Qed.
Lemma count_in : forall n first x, In x (count_up first n) <-> first <= x < first + Z.of_nat n.
Proof.
  intros n. induction n as [|n IH]; intros first x; cbn [count_up In]; [lia|]. rewrite IH. lia.
Qed.
Lemma count_length : forall n first, List.length (count_up first n) = n.
Proof. intros n. induction n as [|n IH]; intros first; [reflexivity|]. cbn. rewrite IH. reflexivity. Qed.
Lemma file_nr_none : forall files nr, file_nr nr files = None -> ~ In nr (map fst files).
Proof.
  intros files nr. induction files as [|(k, b) files IH]; intros H; [intros []|]. cbn [file_nr] in H.
  destruct (Z.eqb_spec k nr); [discriminate|]. intros [E|I]; [cbn in E; contradiction|]. exact (IH H I).
Qed.
Lemma file_nr_in : forall files nr b, file_nr nr files = Some b -> In (nr, b) files.
Proof.
  intros files nr b. induction files as [|(k, c) files IH]; intros H; [discriminate|]. cbn [file_nr] in H.
  destruct (Z.eqb_spec k nr) as [->|]; [injection H as ->; left; reflexivity|right; auto].
Qed.
Lemma numbered_count : forall l first, numbered first l -> map s_nr l = count_up first (List.length l).
Proof. intros l. induction l as [|s l IH]; intros first H; [reflexivity|]. destruct H as (H1 & H2). cbn. rewrite H1, (IH _ H2). reflexivity. Qed.

(** *** The loop as a fold over the segments *)
Fixpoint check_list (writes : bool) (first seg_ticks max_diff : Z) (l : list seg) (w : wstate) : result wstate :=
  match l with
  | [] => Ok w
  | s :: r => let* w1 := check_segment writes first seg_ticks max_diff (s_nr s) (s_start s) (s_dur s) w in
              check_list writes first seg_ticks max_diff r w1
  end.
Lemma measure_timed : forall d file s u, measure d file = Ok (s, u) -> timed d file s u.
Proof.
  intros d file s u H. unfold measure in H. apply bind_ok in H. destruct H as ((out & st) & M & H).
  destruct (ms_tfdt st) as [t|] eqn:T; [|discriminate]. destruct (ms_duration st) as [e|] eqn:E; [|discriminate].
  injection H as -> ->. exists out, st. auto.
Qed.
Lemma loop_list : forall writes rd t m fuel nr w w', check_loop fuel writes rd t m nr w = Ok w' ->
  exists l, numbered nr l /\ check_list writes (rd_first rd) t m l w = Ok w' /\
    Forall (fun s => exists file, In (s_nr s, file) (rd_files rd) /\ timed (rd_default rd) file (s_start s) (s_dur s)) l /\
    (List.length l <= fuel)%nat /\
    (List.length l = fuel \/ ~ In (nr + Z.of_nat (List.length l)) (map fst (rd_files rd))).
Proof.
  intros writes rd t m fuel. induction fuel as [|fuel IH]; intros nr w w' H; cbn [check_loop] in H.
  - exists []. split; [exact I|]. split; [destruct (file_nr _ _); exact H|]. split; [constructor|]. split; [cbn; lia|left; reflexivity].
  - destruct (file_nr nr (rd_files rd)) as [file|] eqn:F.
    + apply bind_ok in H. destruct H as ((s & u) & M & H). apply bind_ok in H. destruct H as (w1 & C & H).
      destruct (IH _ _ _ H) as (l & N & K & A & L & E). exists ((nr, s, u) :: l).
      split; [split; [reflexivity|exact N]|]. split; [cbn [check_list]; change (s_nr (nr, s, u)) with nr; change (s_start (nr, s, u)) with s; change (s_dur (nr, s, u)) with u; rewrite C; exact K|].
      split; [constructor; [|exact A]; exists file; split; [apply file_nr_in; exact F|apply measure_timed; exact M]|].
      cbn [List.length]. split; [lia|]. destruct E as [E|E]; [left; lia|right].
      replace (nr + Z.of_nat (S (List.length l))) with (nr + 1 + Z.of_nat (List.length l)) by lia. exact E.
    + injection H as <-. exists []. split; [exact I|]. split; [reflexivity|]. split; [constructor|]. split; [cbn; lia|].
      right. cbn [List.length]. replace (nr + Z.of_nat 0) with nr by lia. apply file_nr_none. exact F.
Qed.

(** *** Drift *)
Lemma segment_facts : forall writes first t m nr s u w w', check_segment writes first t m nr s u w = Ok w' ->
  exists start, w_start_tick w' = Some start /\ (w_start_tick w = None /\ start = s \/ w_start_tick w = Some start) /\
    Z.abs ((nr - first + 1) * t + start - (s + u)) < m /\ w_end_tick w' = Some (s + u) /\ w_end_nr w' = Some nr.
Proof.
  intros writes first t m nr s u w w' H. unfold check_segment in H. apply bind_ok in H. destruct H as (w1 & W & H).
  assert (E : w_start_tick w1 = w_start_tick w).
  { destruct (u =? w_last w); [injection W as <-; reflexivity|]. apply bind_ok in W. destruct W as (b & _ & W). injection W as <-. reflexivity. }
  rewrite E in H. clear W E. set (start := match w_start_tick w with None => s | Some t0 => t0 end) in *.
  destruct (Z.ltb_spec (Z.abs ((nr - first + 1) * t + start - (s + u))) m) as [L|L]; [|discriminate]. injection H as <-.
  exists start. cbn. split; [reflexivity|]. split; [|auto]. unfold start. destruct (w_start_tick w); auto.
Qed.
Lemma list_facts : forall writes first t m l w w' start, check_list writes first t m l w = Ok w' -> w_start_tick w = Some start ->
  w_start_tick w' = Some start /\ Forall (fun s => Z.abs ((s_nr s - first + 1) * t + start - s_end s) < m) l /\
  (l = [] \/ exists s, In s l /\ s = last l s /\ w_end_tick w' = Some (s_end s) /\ w_end_nr w' = Some (s_nr s)).
Proof.
  intros writes first t m l. induction l as [|s l IH]; intros w w' start H E; cbn [check_list] in H.
  - injection H as <-. split; [exact E|]. split; [constructor|left; reflexivity].
  - apply bind_ok in H. destruct H as (w1 & C & H).
    destruct (segment_facts _ _ _ _ _ _ _ _ _ C) as (st & S1 & S2 & S3 & S4 & S5).
    assert (st = start) as -> by (destruct S2 as [(S2 & _)|S2]; congruence).
    destruct (IH _ _ _ H S1) as (A & B & D). split; [exact A|]. split; [constructor; [exact S3|exact B]|]. right.
    destruct D as [->|(z & I & Z & D1 & D2)].
    + cbn [check_list] in H. injection H as <-. exists s. split; [left; reflexivity|]. auto.
    + exists z. split; [right; exact I|]. split; [|auto]. destruct l as [|y l]; [destruct I|]. exact Z.
Qed.
Lemma last_any : forall A (l : list A) d d', l <> [] -> last l d = last l d'.
Proof. intros A l d d'. induction l as [|x l IH]; intros N; [contradiction|]. destruct l; [reflexivity|]. apply IH. discriminate. Qed.
Lemma check_facts : forall writes first t m l out w', l <> [] -> check_list writes first t m l (wstate0 out) = Ok w' ->
  exists s0 rest, l = s0 :: rest /\ w_start_tick w' = Some (s_start s0) /\ w_end_tick w' = Some (s_end (last l s0)) /\
    w_end_nr w' = Some (s_nr (last l s0)) /\
    Forall (fun s => Z.abs ((s_nr s - first + 1) * t + s_start s0 - s_end s) < m) l.
Proof.
  intros writes first t m l out w' N H. destruct l as [|s0 rest]; [contradiction|]. exists s0, rest. split; [reflexivity|].
  cbn [check_list] in H. apply bind_ok in H. destruct H as (w1 & C & H).
  destruct (segment_facts _ _ _ _ _ _ _ _ _ C) as (st & S1 & S2 & S3 & S4 & S5).
  assert (st = s_start s0) as -> by (destruct S2 as [(_ & S2)|S2]; [exact S2|discriminate]).
  destruct (list_facts _ _ _ _ _ _ _ _ H S1) as (A & B & D). split; [exact A|].
  destruct D as [->|(z & I & Z & D1 & D2)].
  - cbn [check_list] in H. injection H as <-. split; [exact S4|]. split; [exact S5|]. constructor; [exact S3|constructor].
  - assert (E : last (s0 :: rest) s0 = z).
    { destruct rest as [|y rest]; [destruct I|]. change (last (s0 :: y :: rest) s0) with (last (y :: rest) s0). rewrite Z. apply last_any. discriminate. }
    rewrite E. split; [exact D1|]. split; [exact D2|]. constructor; [exact S3|exact B].
Qed.
Lemma numbered_nth : forall l first k s, numbered first l -> nth_error l k = Some s -> s_nr s = first + Z.of_nat k.
Proof.
  intros l. induction l as [|x l IH]; intros first k s N H; [destruct k; discriminate|]. destruct N as (N1 & N2).
  destruct k; [injection H as <-; lia|]. cbn in H. rewrite (IH _ _ _ N2 H). lia.
Qed.
Lemma check_near : forall writes first d ts l out w', l <> [] -> numbered first l ->
  check_list writes first (d * ts) (ts / 10) l (wstate0 out) = Ok w' -> near_grid ts d l.
Proof.
  intros writes first d ts l out w' NE N H. destruct (check_facts _ _ _ _ _ _ _ NE H) as (s0 & rest & E & _ & _ & _ & F).
  intros s0' rest' E' k s K. rewrite E in E'. injection E' as <- <-.
  rewrite Forall_forall in F. pose proof (F s (nth_error_In _ _ K)) as G. rewrite (numbered_nth _ _ _ _ N K) in G.
  replace (first + Z.of_nat k - first + 1) with (Z.of_nat k + 1) in G by lia.
  replace ((Z.of_nat k + 1) * d * ts) with ((Z.of_nat k + 1) * (d * ts)) by ring.
  assert (10 * (ts / 10) <= ts) by (apply Z.mul_div_le; lia). lia.
Qed.

(** *** Tables *)
Local Notation fits := in_range.
Definition entry_bytes (e : entry) : bytes :=
  (le_bytes 2 (e_nr e) ++ le_bytes 2 (e_rep e) ++ le_bytes 4 (e_start e) ++ le_bytes 4 (e_dur e))%list.
Definition encodes (tab : list entry) (b : bytes) : Prop := Forall fits tab /\ b = flat_map entry_bytes tab.
Lemma le_length : forall n z, List.length (le_bytes n z) = n.
Proof. intros n. induction n as [|n IH]; intros z; [reflexivity|]. cbn. rewrite IH. reflexivity. Qed.
Lemma le_round : forall n z, 0 <= z < 256 ^ Z.of_nat n -> le_val (le_bytes n z) = z.
Proof.
  intros n. induction n as [|n IH]; intros z H; cbn [le_bytes le_val]; [change (256 ^ Z.of_nat 0) with 1 in H; lia|].
  rewrite Nat2Z.inj_succ, Z.pow_succ_r in H by lia. rewrite IH.
  - pose proof (Z.div_mod z 256). lia.
  - split; [apply Z.div_pos; lia|apply Z.div_lt_upper_bound; lia].
Qed.
Lemma timing_entry : forall a b c d out, seg_timing a b c d = Ok out ->
  fits (mk_entry a d b c) /\ out = entry_bytes (mk_entry a d b c).
Proof.
  intros a b c d out H. unfold seg_timing, pack_uint in H.
  change (256 ^ Z.of_nat 2) with 65536 in H. change (256 ^ Z.of_nat 4) with 4294967296 in H.
  destruct ((0 <=? a) && (a <? 65536))%bool eqn:A; cbn [bind] in H; [|discriminate].
  destruct ((0 <=? d) && (d <? 65536))%bool eqn:D; cbn [bind] in H; [|discriminate].
  destruct ((0 <=? b) && (b <? 4294967296))%bool eqn:B; cbn [bind] in H; [|discriminate].
  destruct ((0 <=? c) && (c <? 4294967296))%bool eqn:C; cbn [bind] in H; [|discriminate].
  injection H as <-. split; [unfold fits; cbn; lia|reflexivity].
Qed.
Lemma entry_length : forall e, List.length (entry_bytes e) = 12%nat.
Proof. intros e. unfold entry_bytes. rewrite !app_length, !le_length. reflexivity. Qed.
Lemma read_encoded : forall tab fuel, Forall fits tab -> (List.length tab <= fuel)%nat ->
  read_entries fuel (flat_map entry_bytes tab) = Ok tab.
Proof.
  intros tab. induction tab as [|e tab IH]; intros fuel F L; [destruct fuel; reflexivity|].
  inversion F as [|? ? F1 F2]; subst. destruct fuel as [|fuel]; [cbn in L; lia|]. cbn [flat_map].
  set (rest := flat_map entry_bytes tab) in *.
  assert (T : btake 12 (entry_bytes e ++ rest)%list = entry_bytes e).
  { unfold btake. change (Z.to_nat 12) with 12%nat. rewrite <- (entry_length e). rewrite firstn_app, Nat.sub_diag, firstn_all. cbn [firstn]. apply app_nil_r. }
  assert (D : bdrop 12 (entry_bytes e ++ rest)%list = rest).
  { unfold bdrop. change (Z.to_nat 12) with 12%nat. rewrite <- (entry_length e). rewrite skipn_app, Nat.sub_diag, skipn_all. reflexivity. }
  destruct (entry_bytes e ++ rest)%list as [|x y] eqn:E.
  { exfalso. apply (f_equal (@List.length _)) in E. rewrite app_length, entry_length in E. discriminate. }
  cbn [read_entries]. rewrite T, D. unfold blen. rewrite entry_length.
  change (Z.of_nat 12 =? 12) with true. cbv iota.
  rewrite IH by (auto; cbn in L; lia). cbn [bind]. do 2 f_equal.
  destruct F1 as (A & B & C & G). destruct e as [a r s d]. cbn [e_nr e_rep e_start e_dur] in *.
  unfold entry_bytes. cbn [e_nr e_rep e_start e_dur].
  f_equal.
  - transitivity (le_val (le_bytes 2 a)); [|apply le_round; exact A]. reflexivity.
  - transitivity (le_val (le_bytes 2 r)); [|apply le_round; exact B]. reflexivity.
  - transitivity (le_val (le_bytes 4 s)); [|apply le_round; exact C]. reflexivity.
  - transitivity (le_val (le_bytes 4 d)); [|apply le_round; exact G]. reflexivity.
Qed.
Lemma encodes_length : forall tab, (List.length tab <= List.length (flat_map entry_bytes tab))%nat.
Proof. intros tab. induction tab as [|e tab IH]; [reflexivity|]. cbn [flat_map List.length]. rewrite app_length, entry_length. lia. Qed.
Lemma read_round : forall tab b, encodes tab b -> read_table b = Ok tab.
Proof. intros tab b (F & ->). apply read_encoded; [exact F|apply encodes_length]. Qed.

Definition current (w : wstate) : entry := mk_entry (w_first w) (w_repeat w) (w_start w) (w_last w).
Lemma expand_more : forall a r s d, 0 <= r ->
  expand (mk_entry a (r + 1) s d) = (expand (mk_entry a r s d) ++ [(a + r + 1, s + (r + 1) * d, d)])%list.
Proof.
  intros a r s d R. unfold expand. cbn [e_nr e_rep e_start e_dur].
  replace (Z.to_nat (r + 1 + 1)) with (S (Z.to_nat (r + 1))) by lia. rewrite seq_S, map_app. cbn [map Nat.add].
  replace (Z.of_nat (Z.to_nat (r + 1))) with (r + 1) by lia. do 4 f_equal. lia.
Qed.
Lemma expand_one : forall a s d, expand (mk_entry a 0 s d) = [(a, s, d)].
Proof.
  intros a s d. unfold expand. cbn [e_nr e_rep e_start e_dur]. change (Z.to_nat (0 + 1)) with 1%nat. cbn [seq map].
  change (Z.of_nat 0) with 0. rewrite Z.mul_0_l, !Z.add_0_r. reflexivity.
Qed.
Definition chain (start : Z) (l : list seg) : Prop := contiguous l /\ match l with [] => True | s :: _ => s_start s = start end.
Lemma table_list : forall first t m l w w' tab, check_list true first t m l w = Ok w' ->
  encodes tab (w_out w) -> 0 < w_last w -> 0 <= w_repeat w ->
  numbered (w_first w + w_repeat w + 1) l -> chain (w_start w + (w_repeat w + 1) * w_last w) l ->
  exists tab', encodes tab' (w_out w') /\ 0 < w_last w' /\ 0 <= w_repeat w' /\
    (expansion tab' ++ expand (current w') = expansion tab ++ expand (current w) ++ l)%list.
Proof.
  intros first t m l. induction l as [|s l IH]; intros w w' tab H E P R N C; cbn [check_list] in H.
  - injection H as <-. exists tab. rewrite app_nil_r. auto.
  - apply bind_ok in H. destruct H as (w1 & S & H). destruct N as (N1 & N2). destruct C as ((C1 & C2 & C3) & C4).
    unfold check_segment in S. apply bind_ok in S. destruct S as (v & V & S).
    destruct (_ <? m); [|discriminate].
    assert (W : w_repeat w1 = w_repeat v /\ w_first w1 = w_first v /\ w_start w1 = w_start v /\ w_last w1 = w_last v /\ w_out w1 = w_out v)
      by (injection S as <-; cbn; auto). clear S. destruct W as (W1 & W2 & W3 & W4 & W5).
    assert (NX : forall q, q = s_end s -> chain q l) by (intros q ->; split; [exact C2|destruct l; [exact I|exact C3]]).
    destruct (Z.eqb_spec (s_dur s) (w_last w)) as [EQ|NE].
    + injection V as <-. cbn in W1, W2, W3, W4, W5.
      destruct (IH w1 w' tab H) as (tab' & A1 & A2 & A3 & A4).
      * rewrite W5. exact E.
      * rewrite W4. exact P.
      * rewrite W1. lia.
      * rewrite W1, W2. replace (w_first w + (w_repeat w + 1) + 1) with (w_first w + w_repeat w + 1 + 1) by ring. exact N2.
      * apply NX. unfold s_end. rewrite C4, EQ, W1, W3, W4. ring.
      * exists tab'. split; [exact A1|]. split; [exact A2|]. split; [exact A3|]. rewrite A4.
        unfold current. rewrite W1, W2, W3, W4, expand_more by exact R. rewrite <- app_assoc.
        assert (ES : s = (w_first w + w_repeat w + 1, w_start w + (w_repeat w + 1) * w_last w, w_last w)).
        { destruct s as ((x & y) & z). cbn in N1, C4, EQ. congruence. }
        rewrite ES. reflexivity.
    + destruct (Z.eqb_spec (w_last w) 0) as [|_]; [lia|]. cbn [negb andb] in V. apply bind_ok in V. destruct V as (b & B & V).
      destruct (timing_entry _ _ _ _ _ B) as (F & ->). injection V as <-. cbn in W1, W2, W3, W4, W5.
      destruct (IH w1 w' (tab ++ [current w])%list H) as (tab' & A1 & A2 & A3 & A4).
      * rewrite W5. destruct E as (E1 & ->). split; [apply Forall_app; split; [exact E1|constructor; [exact F|constructor]]|].
        rewrite flat_map_app. cbn [flat_map]. rewrite app_nil_r. reflexivity.
      * rewrite W4. exact C1.
      * rewrite W1. lia.
      * rewrite W1, W2, N1. replace (w_first w + w_repeat w + 1 + 0 + 1) with (w_first w + w_repeat w + 1 + 1) by ring. exact N2.
      * apply NX. unfold s_end. rewrite W1, W3, W4. ring.
      * exists tab'. split; [exact A1|]. split; [exact A2|]. split; [exact A3|]. rewrite A4.
        unfold current at 2. rewrite W1, W2, W3, W4, expand_one. unfold expansion. rewrite flat_map_app. cbn [flat_map]. rewrite app_nil_r, <- !app_assoc.
        destruct s as ((x & y) & z). reflexivity.
Qed.
Lemma table_whole : forall first t m l w' out nr, l <> [] -> numbered nr l -> contiguous l ->
  check_list true first t m l (wstate0 []) = Ok w' ->
  seg_timing (w_first w') (w_start w') (w_last w') (w_repeat w') = Ok out ->
  exists tab, read_table (w_out w' ++ out)%list = Ok tab /\ expansion tab = l /\ Forall fits tab.
Proof.
  intros first t m l w' out nr NE N C H B. destruct l as [|s l]; [contradiction|]. cbn [check_list] in H.
  apply bind_ok in H. destruct H as (w1 & S & H). destruct N as (N1 & N2). destruct C as (C1 & C2 & C3).
  unfold check_segment in S. apply bind_ok in S. destruct S as (v & V & S). destruct (_ <? m); [|discriminate].
  assert (W : w_repeat w1 = w_repeat v /\ w_first w1 = w_first v /\ w_start w1 = w_start v /\ w_last w1 = w_last v /\ w_out w1 = w_out v)
    by (injection S as <-; cbn; auto). clear S. destruct W as (W1 & W2 & W3 & W4 & W5).
  change (w_last (wstate0 [])) with 0 in V. destruct (Z.eqb_spec (s_dur s) 0) as [|_]; [lia|].
  cbn [Z.eqb negb andb bind] in V. injection V as <-. cbn in W1, W2, W3, W4, W5.
  destruct (table_list first t m l w1 w' [] H) as (tab & A1 & A2 & A3 & A4).
  - rewrite W5. split; [constructor|reflexivity].
  - lia.
  - lia.
  - rewrite W1, W2, N1. replace (nr + 0 + 1) with (nr + 1) by ring. exact N2.
  - split; [exact C2|]. destruct l; [exact I|]. rewrite C3, W1, W3, W4. unfold s_end. ring.
  - destruct (timing_entry _ _ _ _ _ B) as (F & ->). destruct A1 as (A1 & E1).
    assert (EN : encodes (tab ++ [current w'])%list (w_out w' ++ entry_bytes (current w'))%list).
    { split; [apply Forall_app; split; [exact A1|constructor; [exact F|constructor]]|].
      rewrite flat_map_app, E1. cbn [flat_map]. rewrite app_nil_r. reflexivity. }
    exists (tab ++ [current w'])%list. split; [apply read_round; exact EN|]. split; [|exact (proj1 EN)].
    unfold expansion in *. rewrite flat_map_app. cbn [flat_map]. rewrite app_nil_r, A4. cbn [flat_map app].
    unfold current. rewrite W1, W2, W3, W4, expand_one. destruct s as ((x & y) & z). reflexivity.
Qed.

(** *** Representations, sets, all *)
Lemma check_keeps_out : forall first t m l w w', check_list false first t m l w = Ok w' -> w_out w' = w_out w.
Proof.
  intros first t m l. induction l as [|s l IH]; intros w w' H; cbn [check_list] in H; [injection H as <-; reflexivity|].
  apply bind_ok in H. destruct H as (w1 & S & H). rewrite (IH _ _ H). clear H.
  unfold check_segment in S. apply bind_ok in S. destruct S as (v & V & S). destruct (_ <? m); [|discriminate].
  injection S as <-. cbn [w_out]. destruct (_ =? _); [injection V as <-; reflexivity|].
  rewrite andb_false_r in V. cbn [bind] in V. injection V as <-. cbn [w_out]. apply app_nil_r.
Qed.
Lemma track_init : forall r rd ts, init_rep r = Ok (rd, ts) ->
  rd_id rd = vr_id r /\ rd_files rd = vr_files r /\ track (vr_init r) ts (rd_default rd) /\
  exists n, Permutation (map fst (vr_files r)) (count_up (rd_first rd) (S n)).
Proof.
  intros r rd ts H. unfold init_rep in H. apply bind_ok in H. destruct H as ((out & st) & I & H).
  destruct (is_track_id st); cbn [bind] in H; [|discriminate].
  destruct (is_trex st) as [(((a & d) & b) & c)|] eqn:T; cbn [bind] in H; [|discriminate].
  apply bind_ok in H. destruct H as ((f & l) & R & H). injection H as <- <-. cbn [rd_id rd_files rd_default rd_first].
  split; [reflexivity|]. split; [reflexivity|]. split; [exists out, st, a, b, c; auto|].
  destruct (range_spec _ _ _ R) as (n & P & _). exists n. exact P.
Qed.
(** One representation. *)
Lemma rep_facts : forall r rd ts writes s d a out a' out' total,
  init_rep r = Ok (rd, ts) -> Forall (fun f => 0 <= fst f) (vr_files r) ->
  check_rep writes s ts d rd a out = Ok (a', out', total) ->
  0 <= a_first a' /\ (0 <= a_first a -> a_first a' = a_first a) /\ a_seg_duration a' = a_seg_duration a /\
  exists l, segments_of r ts (a_first a') l /\ near_grid ts d l /\
    if writes then a_last_good a' = (a_last_good a ++ [a_first a' + Z.of_nat (List.length l) - 1])%list /\ extent l total /\
      (out = [] -> contiguous l -> exists tab, read_table out' = Ok tab /\ expansion tab = l /\ Forall in_range tab)
    else a_last_good a' = a_last_good a /\ out' = out.
Proof.
  intros r rd ts writes s d a out a' out' total I F H. destruct (track_init _ _ _ I) as (_ & Fi & T & n & P). clear I.
  unfold check_rep in H. apply bind_ok in H. destruct H as (a1 & A1 & H). apply bind_ok in H. destruct H as (a2 & A2 & H).
  apply bind_ok in H. destruct H as (w & W & H).
  assert (POS : 0 <= rd_first rd).
  { rewrite Forall_forall in F. assert (X : In (rd_first rd) (map fst (vr_files r))).
    { eapply Permutation_in; [symmetry; exact P|left; reflexivity]. }
    apply in_map_iff in X. destruct X as (f & E & X). rewrite <- E. exact (F _ X). }
  assert (B1 : a_first a1 = rd_first rd /\ (0 <= a_first a -> a_first a1 = a_first a) /\ a_seg_duration a1 = a_seg_duration a /\ a_last_good a1 = a_last_good a).
  { destruct (Z.leb_spec 0 (a_first a)).
    - destruct (Z.eqb_spec (rd_first rd) (a_first a)); [|discriminate]. injection A1 as <-. auto.
    - injection A1 as <-. cbn. split; [reflexivity|]. split; [lia|]. split; reflexivity. }
  assert (B2 : a_first a2 = a_first a1 /\ a_seg_duration a2 = a_seg_duration a1 /\ a_last_good a2 = a_last_good a1).
  { destruct (0 <=? a_start_nr a1); [|injection A2 as <-; cbn; auto].
    destruct (vs_start s =? a_start_nr a1); [|discriminate]. injection A2 as <-. auto. }
  clear A1 A2. destruct B1 as (B11 & B12 & B13 & B14). destruct B2 as (B21 & B22 & B23).
  destruct (loop_list _ _ _ _ _ _ _ _ W) as (l & N & C & A & L & E). clear W. rewrite Fi in *.
  assert (LF : List.length (vr_files r) = S n).
  { rewrite <- (map_length fst), (Permutation_length P). apply count_length. }
  assert (LL : List.length l = S n).
  { destruct E as [E|E]; [congruence|]. rewrite LF in L. 
    destruct (Nat.eq_dec (List.length l) (S n)) as [Q|Q]; [exact Q|exfalso]. apply E.
    eapply Permutation_in; [symmetry; exact P|]. apply count_in. lia. }
  assert (NE : l <> []) by (intros ->; discriminate LL).
  assert (SG : segments_of r ts (rd_first rd) l).
  { split; [exact NE|]. split; [exact N|]. split; [rewrite (numbered_count _ _ N), LL; exact P|]. exists (rd_default rd). auto. }
  pose proof (check_near _ _ _ _ _ _ _ NE N C) as G.
  destruct writes.
  - apply bind_ok in H. destruct H as (b & B & H).
    destruct (w_end_nr w) as [x|] eqn:X; [|discriminate]. destruct (w_end_tick w) as [y|] eqn:Y; [|discriminate].
    destruct (w_start_tick w) as [z|] eqn:Z; [|discriminate]. injection H as <- <- <-. cbn [a_first a_seg_duration a_last_good].
    rewrite B21, B11. split; [exact POS|]. split; [intros K; rewrite <- B11; auto|]. split; [congruence|].
    exists l. split; [exact SG|]. split; [exact G|].
    destruct (check_facts _ _ _ _ _ _ _ NE C) as (s0 & rest & E0 & E1 & E2 & E3 & _).
    assert (LN : s_nr (last l s0) = rd_first rd + Z.of_nat (List.length l) - 1).
    { assert (K : last (map s_nr l) (s_nr s0) = s_nr (last l s0)).
      { clear. induction l as [|q l IH]; [reflexivity|]. destruct l; [reflexivity|]. exact IH. }
      rewrite <- K, (numbered_count _ _ N), LL, last_count. lia. }
    split; [rewrite B23, B14; rewrite X in E3; injection E3 as ->; rewrite LN; reflexivity|].
    split; [exists s0, rest; split; [exact E0|]; rewrite Y in E2; rewrite Z in E1; injection E2 as ->; injection E1 as ->; reflexivity|].
    intros -> CT. destruct (table_whole _ _ _ _ _ _ _ NE N CT C B) as (tab & R). exists tab. exact R.
  - injection H as <- <- <-. rewrite B21, B11. split; [exact POS|]. split; [intros K; rewrite <- B11; auto|]. split; [congruence|].
    exists l. split; [exact SG|]. split; [exact G|]. split; [congruence|]. apply (check_keeps_out _ _ _ _ _ _ C).
Qed.
Lemma init_reps_some : forall rs t rds t', init_reps rs (Some t) = Ok (rds, t') -> t' = Some t /\ Forall2 (fun r rd => init_rep r = Ok (rd, t)) rs rds.
Proof.
  intros rs. induction rs as [|r rs IH]; intros t rds t' H; cbn [init_reps] in H; [injection H as <- <-; split; constructor|].
  apply bind_ok in H. destruct H as ((rd & ts) & R & H). destruct (Z.eqb_spec ts t) as [->|]; cbn [bind] in H; [|discriminate].
  apply bind_ok in H. destruct H as ((l & o) & K & H). injection H as <- <-. destruct (IH _ _ _ K) as (-> & F).
  split; [reflexivity|]. constructor; assumption.
Qed.
Lemma init_reps_facts : forall rs rds t, init_reps rs None = Ok (rds, Some t) -> Forall2 (fun r rd => init_rep r = Ok (rd, t)) rs rds.
Proof.
  intros rs rds t H. destruct rs as [|r rs]; cbn [init_reps] in H; [discriminate|].
  apply bind_ok in H. destruct H as ((rd & ts) & R & H). cbn [bind] in H.
  apply bind_ok in H. destruct H as ((l & o) & K & H). injection H as <- ->.
  destruct (init_reps_some _ _ _ _ K) as ([= <-] & F). constructor; assumption.
Qed.
Lemma reps_facts : forall s ts d rs rds, Forall2 (fun r rd => init_rep r = Ok (rd, ts)) rs rds ->
  Forall (fun r => Forall (fun f => 0 <= fst f) (vr_files r)) rs ->
  forall a out a' out', 0 <= a_first a -> check_reps s ts d rds a out = Ok (a', out') ->
  a_first a' = a_first a /\ a_seg_duration a' = a_seg_duration a /\ a_last_good a' = a_last_good a /\ out' = out /\
  Forall (fun r => exists l, segments_of r ts (a_first a) l /\ near_grid ts d l) rs.
Proof.
  intros s ts d rs rds F2. induction F2 as [|r rd rs rds R F2 IH]; intros FN a out a' out' P H; cbn [check_reps] in H.
  - injection H as <- <-. repeat (split; [reflexivity|]). constructor.
  - inversion FN as [|? ? FN1 FN2]; subst. apply bind_ok in H. destruct H as (((a1 & out1) & tot) & C & H).
    destruct (rep_facts _ _ _ _ _ _ _ _ _ _ _ R FN1 C) as (P1 & P2 & P3 & l & P4 & P5 & P6 & P7).
    specialize (P2 P). destruct (IH FN2 _ _ _ _ P1 H) as (Q1 & Q2 & Q3 & Q4 & Q5).
    split; [congruence|]. split; [congruence|]. split; [congruence|]. split; [congruence|].
    rewrite P2 in *. constructor; [exists l; auto|exact Q5].
Qed.
Lemma rd_ids : forall ts rs rds, Forall2 (fun r rd => init_rep r = Ok (rd, ts)) rs rds -> map rd_id rds = map vr_id rs.
Proof.
  intros ts rs rds F. induction F as [|r rd rs rds R F IH]; [reflexivity|]. cbn [map]. rewrite IH.
  destruct (track_init _ _ _ R) as (-> & _). reflexivity.
Qed.
Lemma set_facts : forall base s rds ts a a' m, init_reps (vs_reps s) None = Ok (rds, ts) ->
  Forall (fun r => Forall (fun f => 0 <= fst f) (vr_files r)) (vs_reps s) ->
  check_set base (mk_sdata s rds ts) a = Ok (a', m) ->
  0 <= a_first a' /\ (0 <= a_first a -> a_first a' = a_first a) /\
  exists d n, a_seg_duration a' = Some d /\ (forall d0, a_seg_duration a = Some d0 -> d = d0) /\
    a_last_good a' = (a_last_good a ++ [n])%list /\ set_result d (a_first a') s m n.
Proof.
  intros base s rds ts a a' m I FN H. unfold check_set in H. cbn [sd_set sd_reps sd_timescale] in H.
  destruct ts as [ts|]; cbn [bind] in H; [|discriminate].
  pose proof (init_reps_facts _ _ _ I) as F2. pose proof (rd_ids _ _ _ F2) as IDS.
  apply bind_ok in H. destruct H as (d & D & H). apply bind_ok in H. destruct H as (d' & DD & H).
  assert (d' = d /\ forall d0, a_seg_duration a = Some d0 -> d' = d0) as (-> & DE).
  { destruct (a_seg_duration a) as [e|]; [|injection DD as <-; split; [reflexivity|discriminate]].
    destruct (Z.eqb_spec e d) as [E|]; [|discriminate]. injection DD as <-. split; [exact E|]. intros d0 [= <-]. reflexivity. }
  clear DD. unfold set_duration, py_div in D. destruct (Z.eqb_spec (vs_timescale s) 0) as [|TZ]; [discriminate|]. injection D as <-.
  inversion F2 as [E1 E2|r rd rs rds' R F2' E1 E2]; subst; [discriminate H|]. rewrite <- E1 in FN. inversion FN as [|? ? FN1 FN2]; subst.
  apply bind_ok in H. destruct H as (((a1 & out1) & total) & C & H). apply bind_ok in H. destruct H as ((a2 & out2) & CR & H).
  injection H as <- <-.
  destruct (rep_facts _ _ _ _ _ _ _ _ _ _ _ R FN1 C) as (P1 & P2 & P3 & l & P4 & P5 & P6 & P7 & P8).
  destruct (reps_facts _ _ _ _ _ F2' FN2 _ _ _ _ P1 CR) as (Q1 & Q2 & Q3 & -> & Q5).
  cbn [a_first a_seg_duration a_last_good] in *. rewrite Q1. split; [exact P1|]. split; [exact P2|].
  exists (vs_duration s / vs_timescale s). exists (a_first a1 + Z.of_nat (List.length l) - 1).
  split; [congruence|]. split; [exact DE|]. split; [congruence|].
  split; [reflexivity|]. split; [exact IDS|]. split; [auto|]. cbn [md_timescale md_total md_table].
  rewrite <- E1. split; [|constructor; [exists l; auto|exact Q5]].
  exists r, rs, l. split; [reflexivity|]. split; [exact P4|]. split; [reflexivity|]. split; [exact P7|]. apply P8. reflexivity.
Qed.
Lemma sets_facts : forall base sets seen sds, init_media sets seen = Ok sds -> named sets ->
  forall a a' ms, check_sets base sds a = Ok (a', ms) -> sets <> [] ->
  0 <= a_first a' /\ (0 <= a_first a -> a_first a' = a_first a) /\
  exists d ns, a_seg_duration a' = Some d /\ (forall d0, a_seg_duration a = Some d0 -> d = d0) /\
    a_last_good a' = (a_last_good a ++ ns)%list /\ results d (a_first a') sets ms ns.
Proof.
  intros base sets. induction sets as [|s sets IH]; intros seen sds I FN a a' ms H NE; [contradiction|].
  cbn [init_media] in I. destruct (str_in (vs_type s) seen); [discriminate|].
  apply bind_ok in I. destruct I as ((rds & ts) & R & I). apply bind_ok in I. destruct I as (l & L & I). injection I as <-.
  inversion FN as [|? ? FN1 FN2]; subst. cbn [check_sets] in H.
  apply bind_ok in H. destruct H as ((a1 & m) & C & H). apply bind_ok in H. destruct H as ((a2 & ms') & CS & H). injection H as <- <-.
  destruct (set_facts _ _ _ _ _ _ _ R FN1 C) as (P1 & P2 & d & n & P3 & P4 & P5 & P6).
  destruct sets as [|s2 sets].
  - cbn [init_media] in L. injection L as <-. cbn [check_sets] in CS. injection CS as <- <-.
    split; [exact P1|]. split; [exact P2|]. exists d, [n]. split; [exact P3|]. split; [exact P4|]. split; [exact P5|].
    constructor; [exact P6|constructor].
  - destruct (IH _ _ L FN2 _ _ _ CS ltac:(discriminate)) as (Q1 & Q2 & d2 & ns & Q3 & Q4 & Q5 & Q6).
    specialize (Q2 P1). specialize (Q4 _ P3). subst d2. rewrite Q2 in *. split; [exact P1|]. split; [exact P2|].
    exists d, (n :: ns). split; [exact Q3|]. split; [exact P4|]. split; [rewrite Q5, P5, <- app_assoc; reflexivity|].
    constructor; assumption.
Qed.
Lemma list_min_spec : forall l m, list_min l m <= m /\ (forall x, In x l -> list_min l m <= x) /\ In (list_min l m) (m :: l).
Proof.
  intros l. induction l as [|y l IH]; intros m; cbn [list_min].
  - split; [lia|]. split; [intros x []|left; reflexivity].
  - destruct (IH (Z.min m y)) as (A & B & C). split; [lia|]. split; [intros x [<-|X]; [lia|auto]|].
    destruct C as [C|C]; [|right; right; exact C]. destruct (Z.min_spec m y) as [(_ & E)|(_ & E)]; rewrite E in *; [left; exact C|right; left; exact C].
Qed.
Lemma analyze_facts : forall base sets cfg ms, analyze base sets = Ok (cfg, ms) -> named sets ->
  exists ns n0 ns', ns = n0 :: ns' /\ results (vd_duration cfg) (vd_first cfg) sets ms ns /\
    vd_first cfg + vd_n cfg - 1 = list_min ns' n0 /\ 0 <= vd_first cfg /\ vd_tsbd cfg = 300 /\
    vd_media cfg = flat_map (fun ct => match assoc ct (map (fun m => (md_type m, m)) ms) with Some m => [(ct, m)] | None => [] end) ["video"; "audio"].
Proof.
  intros base sets cfg ms H FN. unfold analyze in H. apply bind_ok in H. destruct H as (sds & I & H).
  apply bind_ok in H. destruct H as ((a & ms') & C & H).
  destruct sets as [|s sets].
  { cbn [init_media] in I. injection I as <-. cbn [check_sets] in C. injection C as <- <-. discriminate H. }
  destruct (sets_facts _ _ _ _ I FN _ _ _ C ltac:(discriminate)) as (P1 & _ & d & ns & P2 & _ & P3 & P4).
  cbn [a_last_good] in P3. cbn [app] in P3. rewrite P2 in H. destruct (a_last_good a) as [|x r] eqn:G; [discriminate|]. injection H as <- <-.
  cbn [vd_duration vd_first vd_n vd_tsbd vd_media]. exists ns, x, r. split; [symmetry; exact P3|]. split; [exact P4|]. split; [lia|]. split; [exact P1|]. split; [reflexivity|].
  cbn [flat_map]. rewrite app_nil_r. reflexivity.
Qed.
