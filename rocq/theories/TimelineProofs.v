(** Lemmas about TimelineModel.v. *)
From Coq Require Import Lia ZifyBool ZifyNat.
From Verif Require Import Base TimelineModel TimelineSpec.
Open Scope Z_scope.

Definition e0 : entry := mk_entry 0 0 0 0.
Notation ent tab i := (nth (Z.to_nat i) tab e0).

(** * Tables *)
Lemma covers_facts tab : forall nr st nr1 st1,
  covers tab nr st nr1 st1 ->
  Z.of_nat (List.length (table_segs tab)) = nr1 - nr
  /\ st <= st1 /\ nr + Z.of_nat (List.length tab) <= nr1 /\ (tab <> [] -> st < st1)
  /\ forall i, 0 <= i < Z.of_nat (List.length tab) ->
     let e := ent tab i in
     0 <= e_rep e /\ 0 < e_dur e /\ nr <= e_nr e /\ st <= e_start e
     /\ e_nr e + e_rep e + 1 <= nr1 /\ e_start e + (e_rep e + 1) * e_dur e <= st1
     /\ (i = 0 -> e_nr e = nr /\ e_start e = st)
     /\ (i + 1 < Z.of_nat (List.length tab) ->
         e_nr (ent tab (i + 1)) = e_nr e + e_rep e + 1
         /\ e_start (ent tab (i + 1)) = e_start e + (e_rep e + 1) * e_dur e)
     /\ (i + 1 = Z.of_nat (List.length tab) ->
         nr1 = e_nr e + e_rep e + 1 /\ st1 = e_start e + (e_rep e + 1) * e_dur e)
     /\ forall r, 0 <= r <= e_rep e ->
        nth (Z.to_nat (e_nr e - nr + r)) (table_segs tab) (0, 0) = (e_start e + r * e_dur e, e_dur e)
        /\ run_of tab (e_nr e - nr + r) = i.
Proof.
  induction tab as [|e tab IH]; intros nr st nr1 st1 H.
  - cbn in H. destruct H as [-> ->]. repeat split; try (cbn; lia); try (intros; cbn in *; lia).
    intros K. congruence.
  - cbn [covers] in H. destruct H as (Hn & Hs & Hr & Hd & H).
    specialize (IH _ _ _ _ H). destruct IH as (L & Hle & Hlen & Hlt & IH).
    assert (Lr : List.length (run_segs e) = Z.to_nat (e_rep e + 1)).
    { unfold run_segs. rewrite map_length, seq_length. reflexivity. }
    assert (Hpos : 0 < (e_rep e + 1) * e_dur e) by (apply Z.mul_pos_pos; lia).
    split.
    { cbn [table_segs flat_map]. rewrite app_length, Lr. fold (table_segs tab). lia. }
    split; [lia|]. split; [cbn [List.length]; lia|]. split; [lia|].
    intros i Hi. cbn [List.length] in Hi |- *.
    destruct (Z.eq_dec i 0) as [->|Ni].
    + change (ent (e :: tab) 0) with e. cbv zeta.
      do 6 (split; [lia|]). split; [intros _; lia|]. split; [|split; [|intros r Hrr; split]].
      * intros Hi1. change (ent (e :: tab) (0 + 1)) with (ent tab 0).
        destruct (IH 0 ltac:(lia)) as (_ & _ & _ & _ & _ & _ & F & _). specialize (F eq_refl). cbv zeta in F. lia.
      * intros Hi1. destruct tab; [|cbn in Hi1; lia]. cbn in H. lia.
      * cbn [table_segs flat_map]. rewrite app_nth1 by (rewrite Lr; lia).
        unfold run_segs.
        set (f := fun r0 => (e_start e + Z.of_nat r0 * e_dur e, e_dur e)).
        rewrite (nth_indep _ _ (f 0%nat)) by (rewrite map_length, seq_length; lia).
        rewrite map_nth, seq_nth by lia. unfold f. repeat f_equal. lia.
      * cbn [run_of]. destruct (Z.ltb_spec (e_nr e - nr + r) (e_rep e + 1)); [reflexivity|lia].
    + assert (Ei : forall j, 0 < j -> ent (e :: tab) j = ent tab (j - 1)).
      { intros j Hj. replace (Z.to_nat j) with (S (Z.to_nat (j - 1))) by lia. reflexivity. }
      rewrite !Ei by lia. cbv zeta.
      destruct (IH (i - 1) ltac:(lia)) as (A1 & A2 & A3 & A4 & A5 & A6 & A7 & A8 & A9 & A10).
      cbv zeta in *.
      replace (i + 1 - 1) with (i - 1 + 1) by lia.
      do 6 (split; [lia|]). split; [intros; lia|]. split; [|split; [|intros r Hrr; split]].
      * intros Hi1. apply A8; lia.
      * intros Hi1. apply A9; lia.
      * destruct (A10 r ltac:(lia)) as [B _]. cbn [table_segs flat_map].
        rewrite app_nth2 by (rewrite Lr; lia). rewrite Lr. fold (table_segs tab).
        rewrite <- B. f_equal. lia.
      * destruct (A10 r ltac:(lia)) as [_ B]. cbn [run_of].
        destruct (Z.ltb_spec (e_nr (ent tab (i - 1)) - nr + r) (e_rep e + 1)); [lia|].
        replace (e_nr (ent tab (i - 1)) - nr + r - (e_rep e + 1))
          with (e_nr (ent tab (i - 1)) - (nr + e_rep e + 1) + r) by lia. lia.
Qed.

Lemma covers_find tab : forall nr st nr1 st1 j,
  covers tab nr st nr1 st1 -> 0 <= j < nr1 - nr ->
  exists i r, 0 <= i < Z.of_nat (List.length tab) /\ 0 <= r <= e_rep (ent tab i)
              /\ j = e_nr (ent tab i) - nr + r.
Proof.
  induction tab as [|e tab IH]; intros nr st nr1 st1 j H Hj.
  - cbn in H. lia.
  - cbn [covers] in H. destruct H as (Hn & Hs & Hr & Hd & H).
    destruct (Z.ltb_spec j (e_rep e + 1)) as [K|K].
    + exists 0, j. cbn [List.length]. change (ent (e :: tab) 0) with e. lia.
    + destruct (IH _ _ _ _ (j - (e_rep e + 1)) H ltac:(lia)) as (i & r & Hi & Hr' & E).
      exists (i + 1), r. cbn [List.length].
      replace (Z.to_nat (i + 1)) with (S (Z.to_nat i)) by lia.
      change (nth (S (Z.to_nat i)) (e :: tab) e0) with (ent tab i). lia.
Qed.

(** * bisect *)
Lemma bisect_loop_spec a x : (forall i j, (i <= j < List.length a)%nat -> nth i a 0 <= nth j a 0) ->
  forall fuel lo hi, 0 <= lo <= hi -> hi <= Z.of_nat (List.length a) -> hi - lo < Z.of_nat fuel ->
  (forall j, 0 <= j < lo -> nth (Z.to_nat j) a 0 <= x) ->
  (forall j, hi <= j < Z.of_nat (List.length a) -> x < nth (Z.to_nat j) a 0) ->
  let m := bisect_loop fuel a x lo hi in
  0 <= m <= Z.of_nat (List.length a)
  /\ (forall j, 0 <= j < m -> nth (Z.to_nat j) a 0 <= x)
  /\ (forall j, m <= j < Z.of_nat (List.length a) -> x < nth (Z.to_nat j) a 0).
Proof.
  intros Mono. induction fuel as [|f IH]; intros lo hi H0 H1 Hf Hlo Hhi; [lia|].
  cbn [bisect_loop]. cbv zeta in IH |- *.
  destruct (Z.ltb_spec lo hi) as [K|K].
  - assert (Hmid : lo <= (lo + hi) / 2 < hi) by (Z.to_euclidean_division_equations; lia).
    set (mid := (lo + hi) / 2) in *. clearbody mid.
    destruct (Z.ltb_spec x (nth (Z.to_nat mid) a 0)) as [Q|Q].
    + apply IH; try lia; auto.
      intros j Hj. eapply Z.lt_le_trans; [exact Q|]. apply Mono. lia.
    + apply IH; try lia; auto.
      intros j Hj. eapply Z.le_trans; [|exact Q]. apply Mono. lia.
  - replace hi with lo in * by lia. repeat split; auto; lia.
Qed.

Lemma bisect_spec a x : (forall i j, (i <= j < List.length a)%nat -> nth i a 0 <= nth j a 0) ->
  let m := bisect a x in
  0 <= m <= Z.of_nat (List.length a)
  /\ (forall j, 0 <= j < m -> nth (Z.to_nat j) a 0 <= x)
  /\ (forall j, m <= j < Z.of_nat (List.length a) -> x < nth (Z.to_nat j) a 0).
Proof. intros Mono. apply bisect_loop_spec; auto; lia. Qed.

Lemma repeat_loop_ok st dur rel : 0 < dur -> forall fuel r,
  rel - (st + (r + 1) * dur) <= (Z.of_nat fuel - 1) * dur -> 0 <= r -> (r = 0 \/ st + r * dur < rel) -> (0 < fuel)%nat ->
  exists r', repeat_loop fuel (st + (r + 1) * dur) dur rel r = Ok r'
    /\ 0 <= r' /\ rel <= st + (r' + 1) * dur /\ (r' = 0 \/ st + r' * dur < rel).
Proof.
  intros Hd. induction fuel as [|f IH]; intros r Hf Hr Hinv Hpos; [lia|].
  cbn [repeat_loop]. destruct (Z.ltb_spec (st + (r + 1) * dur) rel) as [K|K].
  - replace (st + (r + 1) * dur + dur) with (st + (r + 1 + 1) * dur) by lia.
    assert (f <> 0)%nat by (intros ->; lia). apply IH; try lia.
  - exists r. auto.
Qed.

(** * Positions in the endless sequence *)
Section Gen.
Variable g : tgen.
Hypothesis G : gen_ok g.
Notation tab := (tg_table g).
Notation n := (tlen g).
Notation N := (tg_per_wrap g).
Notation W := (tg_wrap g).
Definition valid (i r : Z) : Prop := 0 <= i < tlen g /\ 0 <= r <= e_rep (ent (tg_table g) i).
Definition kpos (w i r : Z) : Z := w * tg_per_wrap g + (e_nr (ent (tg_table g) i) - tg_first g) + r.

Lemma n_pos : 0 < n.
Proof. destruct G as (H & _). unfold tlen. destruct (tg_table g); [congruence|cbn; lia]. Qed.
Lemma entries i : 0 <= i < n ->
  let e := ent tab i in
  0 <= e_rep e /\ 0 < e_dur e /\ tg_first g <= e_nr e /\ 0 <= e_start e
  /\ e_nr e + e_rep e + 1 <= tg_first g + N /\ e_start e + (e_rep e + 1) * e_dur e <= W
  /\ (i = 0 -> e_nr e = tg_first g /\ e_start e = 0)
  /\ (i + 1 < n -> e_nr (ent tab (i + 1)) = e_nr e + e_rep e + 1
                   /\ e_start (ent tab (i + 1)) = e_start e + (e_rep e + 1) * e_dur e)
  /\ (i + 1 = n -> tg_first g + N = e_nr e + e_rep e + 1 /\ W = e_start e + (e_rep e + 1) * e_dur e).
Proof.
  intros Hi. destruct G as (_ & _ & H). destruct (covers_facts _ _ _ _ _ H) as (_ & _ & _ & _ & F).
  destruct (F i Hi) as (A1 & A2 & A3 & A4 & A5 & A6 & A7 & A8 & A9 & _). cbv zeta in *. tauto.
Qed.
Lemma N_eq : Z.of_nat (List.length (table_segs tab)) = N.
Proof. destruct G as (_ & _ & H). destruct (covers_facts _ _ _ _ _ H) as (L & _). lia. Qed.
Lemma N_pos : 0 < N.
Proof. destruct G as (_ & _ & H). destruct (covers_facts _ _ _ _ _ H) as (_ & _ & L & _). pose proof n_pos. unfold tlen in *. lia. Qed.
Lemma W_pos : 0 < W.
Proof. destruct G as (T & _ & H). destruct (covers_facts _ _ _ _ _ H) as (_ & _ & _ & L & _). apply L in T. exact T. Qed.

Lemma kpos_split w i r : valid i r -> kpos w i r / N = w /\ kpos w i r mod N = e_nr (ent tab i) - tg_first g + r.
Proof.
  intros [Hi Hr]. pose proof (entries i Hi) as F. cbv zeta in F. pose proof N_pos.
  unfold kpos.
  set (j := e_nr (ent tab i) - tg_first g + r) in *.
  replace (w * N + (e_nr (ent tab i) - tg_first g) + r) with (j + w * N) by (unfold j; lia).
  assert (0 <= j < N) by (unfold j; lia).
  rewrite Z.div_add, Z.mod_add by lia. rewrite Z.div_small, Z.mod_small by lia. lia.
Qed.
Lemma kpos_facts w i r : valid i r ->
  live_seg g (kpos w i r) = (w * W + e_start (ent tab i) + r * e_dur (ent tab i), e_dur (ent tab i))
  /\ turn g (kpos w i r) = w /\ run g (kpos w i r) = i.
Proof.
  intros V. destruct (kpos_split w i r V) as [D M]. destruct V as [Hi Hr].
  destruct G as (_ & _ & H). destruct (covers_facts _ _ _ _ _ H) as (_ & _ & _ & _ & F).
  destruct (F i Hi) as (_ & _ & _ & _ & _ & _ & _ & _ & _ & F'). destruct (F' r Hr) as [F1 F2].
  unfold live_seg, turn, run. cbv zeta. rewrite N_eq. rewrite D, M.
  rewrite F1, F2. repeat split. f_equal. lia.
Qed.
Lemma kpos_start w i r : valid i r ->
  live_start g (kpos w i r) = w * W + e_start (ent tab i) + r * e_dur (ent tab i).
Proof. intros V. unfold live_start. rewrite (proj1 (kpos_facts w i r V)). reflexivity. Qed.
Lemma kpos_end w i r : valid i r ->
  live_end g (kpos w i r) = w * W + e_start (ent tab i) + (r + 1) * e_dur (ent tab i).
Proof. intros V. unfold live_end. rewrite (proj1 (kpos_facts w i r V)). cbn [fst snd]. lia. Qed.

Lemma kpos_exists k : exists i r, valid i r /\ k = kpos (k / N) i r.
Proof.
  pose proof N_pos. destruct G as (_ & _ & H0).
  assert (B : 0 <= k mod N < tg_first g + tg_per_wrap g - tg_first g).
  { pose proof (Z.mod_pos_bound k N). lia. }
  destruct (covers_find _ _ _ _ _ (k mod N) H0 B) as (i & r & Hi & Hr & E).
  exists i, r. split; [split; assumption|]. unfold kpos.
  pose proof (Z.div_mod k N). lia.
Qed.

(** The next position. *)
Definition next_pos (i r w : Z) : Z * Z * Z :=
  if r <? e_rep (ent (tg_table g) i) then (i, r + 1, w)
  else if i + 1 <? tlen g then (i + 1, 0, w) else (0, 0, w + 1).
Lemma next_pos_ok w i r : valid i r -> forall i' r' w', next_pos i r w = (i', r', w') ->
  valid i' r' /\ kpos w' i' r' = kpos w i r + 1
  /\ w' * W + e_start (ent tab i') + r' * e_dur (ent tab i') = w * W + e_start (ent tab i) + (r + 1) * e_dur (ent tab i)
  /\ (r' = 0 <-> (w' <> w \/ i' <> i)).
Proof.
  intros [Hi Hr] i' r' w' E. unfold next_pos in E. pose proof (entries i Hi) as F. cbv zeta in F.
  pose proof n_pos as Hn. pose proof (entries 0 ltac:(lia)) as F0. cbv zeta in F0.
  unfold valid, kpos. fold n in *.
  destruct (Z.ltb_spec r (e_rep (ent tab i))) as [K|K].
  - injection E as <- <- <-. repeat split; try lia; try tauto.
  - assert (r = e_rep (ent tab i)) by lia. subst r.
    destruct (Z.ltb_spec (i + 1) n) as [L|L].
    + injection E as <- <- <-. pose proof (entries (i + 1) ltac:(lia)) as F1. cbv zeta in F1.
      repeat split; try lia; try tauto.
    + assert (L' : i + 1 = n) by lia. injection E as <- <- <-. repeat split; try lia; try tauto.
Qed.
Lemma live_next k : live_start g (k + 1) = live_end g k.
Proof.
  destruct (kpos_exists k) as (i & r & V & ->). set (w := k / N). clearbody w. 
  destruct (next_pos i r w) as [[i' r'] w'] eqn:E.
  destruct (next_pos_ok w i r V _ _ _ E) as (V' & K & S & _).
  rewrite <- K, (kpos_start _ _ _ V'), (kpos_end _ _ _ V). exact S.
Qed.
Lemma starts_run_next w i r : valid i r -> forall i' r' w', next_pos i r w = (i', r', w') ->
  (starts_run g (kpos w i r + 1) <-> r' = 0).
Proof.
  intros V i' r' w' E. destruct (next_pos_ok w i r V _ _ _ E) as (V' & K & _ & Z0).
  unfold starts_run. rewrite <- K. replace (kpos w' i' r' - 1) with (kpos w i r) by lia.
  destruct (kpos_facts w i r V) as (_ & -> & ->). destruct (kpos_facts w' i' r' V') as (_ & -> & ->).
  rewrite Z0. split; intros [A|A]; try (left; congruence); right; congruence.
Qed.
Lemma starts_run_iff w i r : valid i r -> (starts_run g (kpos w i r) <-> r = 0).
Proof.
  intros V. destruct (kpos_exists (kpos w i r - 1)) as (i0 & r0 & V0 & E0).
  set (w0 := (kpos w i r - 1) / N) in *. clearbody w0.
  destruct (next_pos i0 r0 w0) as [[i' r'] w'] eqn:E.
  destruct (next_pos_ok w0 i0 r0 V0 _ _ _ E) as (V' & K & _ & _).
  pose proof (starts_run_next w0 i0 r0 V0 _ _ _ E) as S.
  assert (K' : kpos w' i' r' = kpos w i r) by lia.
  rewrite <- K, K' in S. rewrite S.
  destruct (kpos_facts w i r V) as (A1 & A2 & A3). destruct (kpos_facts w' i' r' V') as (B1 & B2 & B3).
  rewrite K' in B2, B3. rewrite A2 in B2. rewrite A3 in B3. subst i' w'.
  unfold kpos in K'. lia.
Qed.
Lemma live_dur k : 0 < live_end g k - live_start g k.
Proof.
  destruct (kpos_exists k) as (i & r & V & ->). rewrite (kpos_start _ _ _ V), (kpos_end _ _ _ V).
  destruct V as [Hi _]. pose proof (entries i Hi) as F. cbv zeta in F. lia.
Qed.
Lemma live_start_mono a b : a <= b -> live_start g a <= live_start g b.
Proof.
  intros H. replace b with (a + Z.of_nat (Z.to_nat (b - a))) by lia.
  induction (Z.to_nat (b - a)) as [|m IH]; [rewrite Z.add_0_r; lia|].
  replace (a + Z.of_nat (S m)) with (a + Z.of_nat m + 1) by lia. rewrite live_next.
  pose proof (live_dur (a + Z.of_nat m)). lia.
Qed.
Lemma live_start_lt a b : a < b -> live_end g a <= live_start g b.
Proof. intros H. rewrite <- live_next. apply live_start_mono. lia. Qed.
Lemma live_end_mono a b : a <= b -> live_end g a <= live_end g b.
Proof. intros H. rewrite <- !live_next. apply live_start_mono. lia. Qed.

(** * The searches *)
Lemma entry_at_ok i : 0 <= i < n -> entry_at g i = Ok (ent tab i).
Proof.
  intros Hi. unfold entry_at. destruct (Z.ltb_spec i 0); [lia|].
  destruct (Z.ltb_spec i 0); [lia|]. cbv zeta.
  rewrite (nth_error_nth' (tg_table g) e0) by (unfold tlen in Hi; lia). reflexivity.
Qed.
Lemma starts_mono : forall i j, (i <= j < List.length (starts g))%nat -> nth i (starts g) 0 <= nth j (starts g) 0.
Proof.
  assert (S1 : forall i, (i < List.length tab)%nat -> nth i (starts g) 0 = e_start (nth i tab e0)).
  { intros i Hi. unfold starts. change 0 with (e_start e0). rewrite map_nth. reflexivity. }
  unfold starts at 1. rewrite map_length.
  intros i j [Hij Hj]. induction Hij as [|j Hij IH]; [lia|].
  eapply Z.le_trans; [apply IH; lia|].
  rewrite !S1 by lia.
  pose proof (entries (Z.of_nat j)) as F. unfold tlen in F.
  specialize (F ltac:(lia)). cbv zeta in F. destruct F as (F1 & F2 & _ & _ & _ & _ & _ & F & _).
  destruct (F ltac:(lia)) as [_ F']. replace (Z.to_nat (Z.of_nat j + 1)) with (S j) in F' by lia.
  rewrite Nat2Z.id in *. rewrite F'. 
  assert (0 < (e_rep (nth j tab e0) + 1) * e_dur (nth j tab e0)) by (apply Z.mul_pos_pos; lia). lia.
Qed.
Lemma bisect_run rel : 0 <= rel < W -> exists i, bisect (starts g) rel - 1 = i /\ 0 <= i < n
  /\ e_start (ent tab i) <= rel < e_start (ent tab i) + (e_rep (ent tab i) + 1) * e_dur (ent tab i).
Proof.
  intros Hrel. exists (bisect (starts g) rel - 1). split; [reflexivity|].
  destruct (bisect_spec (starts g) rel starts_mono) as (B0 & B1 & B2). cbv zeta in *.
  assert (L : Z.of_nat (List.length (starts g)) = n) by (unfold starts, tlen; rewrite map_length; reflexivity).
  rewrite L in *. pose proof n_pos as Hn.
  assert (S1 : forall i, nth i (starts g) 0 = e_start (nth i tab e0)).
  { intros i. unfold starts. change 0 with (e_start e0). rewrite map_nth. reflexivity. }
  set (m := bisect (starts g) rel) in *. clearbody m.
  assert (Hm : 0 < m).
  { destruct (Z.ltb_spec 0 m); [assumption|]. exfalso.
    specialize (B2 0 ltac:(lia)). rewrite S1 in B2.
    pose proof (entries 0 ltac:(lia)) as F. cbv zeta in F. lia. }
  split; [lia|]. pose proof (entries (m - 1) ltac:(lia)) as F. cbv zeta in F.
  replace (m - 1 + 1) with m in F by lia.
  split; [rewrite <- S1; apply B1; lia|].
  destruct (Z.ltb_spec m n) as [K|K].
  - specialize (B2 m ltac:(lia)). rewrite S1 in B2. lia.
  - assert (m = n) by lia. lia.
Qed.

Lemma find_latest_ok act : 0 <= act -> exists i r w,
  find_latest g act = Ok (Some (i, r, w)) /\ 0 <= w /\ valid i r /\ first_listed g act (kpos w i r).
Proof.
  intros Ha. pose proof W_pos as HW. unfold find_latest.
  destruct (Z.eqb_spec W 0); [lia|]. cbv zeta.
  assert (Hw : 0 <= act / W) by (apply Z.div_pos; lia).
  destruct (Z.ltb_spec (act / W) 0); [lia|].
  destruct (bisect_run (act mod W) (Z.mod_pos_bound _ _ HW)) as (i & Ei & Hi & Hrel).
  rewrite Ei, (entry_at_ok i Hi). cbn [bind].
  pose proof (entries i Hi) as F. cbv zeta in F. destruct F as (F1 & F2 & F3 & F4 & F5 & F6 & _).
  set (e := ent tab i) in *.
  set (rel := act mod W) in *.
  destruct (repeat_loop_ok (e_start e) (e_dur e) rel F2 (S (S (Z.to_nat ((rel - (e_start e + e_dur e)) / e_dur e)))) 0)
    as (r & E & Hr0 & Hr1 & Hr2); try lia.
  rewrite Z.add_0_l, Z.mul_1_l in E. rewrite E. cbn [bind].
  exists i, r, (act / W). split; [reflexivity|]. split; [assumption|].
  assert (Hr : r <= e_rep e).
  { destruct Hr2 as [->|Hr2]; [lia|].
    assert (r * e_dur e < (e_rep e + 1) * e_dur e) by lia.
    apply Z.mul_lt_mono_pos_r in H0; lia. }
  assert (V : valid i r) by (split; [exact Hi|fold e; lia]).
  split; [exact V|].
  assert (Eact : act = act / W * W + rel) by (unfold rel; pose proof (Z.div_mod act W); lia).
  split.
  { unfold kpos. pose proof (N_pos). fold e. assert (0 <= act / W * N) by (apply Z.mul_nonneg_nonneg; lia). lia. }
  rewrite (kpos_start _ _ _ V), (kpos_end _ _ _ V), (starts_run_iff _ _ _ V). fold e.
  assert (D1 : (r + 1) * e_dur e = r * e_dur e + e_dur e) by lia.
  destruct (Z.eq_dec (e_start e + r * e_dur e) rel) as [Q|Q].
  - right. split; [lia|]. destruct Hr2; [assumption|lia].
  - left. split.
    + destruct Hr2 as [->|]; lia.
    + intros Q2. destruct (next_pos i r (act / W)) as [[i' r'] w'] eqn:En.
      rewrite (starts_run_next _ _ _ V _ _ _ En). unfold next_pos in En. fold e in En.
      destruct (Z.ltb_spec r (e_rep e)) as [K|K]; [injection En as <- <- <-; lia|].
      assert (r = e_rep e) by lia. subst r. lia.
Qed.

Lemma end_loop_ok e i r w fuel : 0 <= w -> valid i r ->
  live_start g (kpos w i r) <= e <= live_end g (kpos w i r) -> (2 <= fuel)%nat ->
  (end_loop fuel g e i r w = Ok None /\ e < live_end g 0)
  \/ (exists i' r' w', end_loop fuel g e i r w = Ok (Some (i', r', w')) /\ 0 <= w' /\ valid i' r'
        /\ last_complete g e (kpos w' i' r')).
Proof.
  intros Hw V He Hf. destruct fuel as [|[|f]]; try lia.
  assert (Ht : forall w i r, valid i r -> seg_endtime g w i r = Ok (live_end g (kpos w i r))).
  { intros. unfold seg_endtime. rewrite entry_at_ok by apply H. cbn [bind]. rewrite kpos_end by assumption. reflexivity. }
  assert (Hk : forall w i r, 0 <= w -> valid i r -> 0 <= kpos w i r).
  { intros w0 i0 r0 Hw0 [Hi0 Hr0]. pose proof (entries i0 Hi0) as F. cbv zeta in F. unfold kpos. pose proof N_pos.
    assert (0 <= w0 * N) by (apply Z.mul_nonneg_nonneg; lia). lia. }
  assert (Step : forall w' i' r', 0 <= w' -> valid i' r' -> kpos w' i' r' = kpos w i r - 1 ->
     e < live_end g (kpos w i r) ->
     end_loop (S f) g e i' r' w' = Ok (Some (i', r', w')) /\ last_complete g e (kpos w' i' r')).
  { intros w' i' r' Hw' V' K Hlt. cbn [end_loop]. rewrite (Ht _ _ _ V'). cbn [bind].
    assert (live_end g (kpos w' i' r') = live_start g (kpos w i r)).
    { rewrite <- live_next. f_equal. lia. }
    destruct (Z.ltb_spec e (live_end g (kpos w' i' r'))); [lia|]. split; [reflexivity|].
    split; [apply Hk; assumption|]. split; [lia|]. rewrite K. replace (kpos w i r - 1 + 1) with (kpos w i r) by lia. lia. }
  pose proof (Hk w i r Hw V) as Hk0.
  change (end_loop (S (S f)) g e i r w) with
   (let* tics := seg_endtime g w i r in
      if e <? tics then
        if 0 <? r then end_loop (S f) g e i (r - 1) w
        else if 0 <? i then
          let* en := entry_at g (i - 1) in end_loop (S f) g e (i - 1) (e_rep en) w
        else
          let i1 := tlen g - 1 in
          let* en := entry_at g i1 in
          if w - 1 <? 0 then Ok None else end_loop (S f) g e i1 (e_rep en) (w - 1)
      else Ok (Some (i, r, w))).
  rewrite (Ht _ _ _ V). cbn [bind].
  destruct (Z.ltb_spec e (live_end g (kpos w i r))) as [K|K].
  - pose proof V as [Hi Hr]. pose proof (entries i Hi) as F. cbv zeta in F.
    destruct (Z.ltb_spec 0 r) as [R|R].
    + right. exists i, (r - 1), w.
      assert (V' : valid i (r - 1)) by (split; [assumption|lia]).
      destruct (Step w i (r - 1) Hw V' ltac:(unfold kpos; lia) K). auto.
    + assert (r = 0) by lia. subst r.
      destruct (Z.ltb_spec 0 i) as [I|I].
      * fold n in Hi. rewrite entry_at_ok by lia. cbn [bind].
        pose proof (entries (i - 1) ltac:(lia)) as F1. cbv zeta in F1. replace (i - 1 + 1) with i in F1 by lia.
        right. exists (i - 1), (e_rep (ent tab (i - 1))), w.
        assert (V' : valid (i - 1) (e_rep (ent tab (i - 1)))) by (split; [fold n; lia|lia]).
        destruct (Step w _ _ Hw V' ltac:(unfold kpos; lia) K). auto.
      * assert (i = 0) by lia. subst i. pose proof n_pos as Hn. cbv zeta. fold n.
        rewrite entry_at_ok by lia. cbn [bind].
        pose proof (entries (n - 1) ltac:(lia)) as F1. cbv zeta in F1.
        destruct (Z.ltb_spec (w - 1) 0) as [L|L].
        -- left. split; [reflexivity|]. assert (w = 0) by lia. subst w.
           replace (kpos 0 0 0) with 0 in K; [assumption|]. unfold kpos. lia.
        -- right. exists (n - 1), (e_rep (ent tab (n - 1))), (w - 1).
           assert (V' : valid (n - 1) (e_rep (ent tab (n - 1)))) by (split; [fold n; lia|lia]).
           destruct (Step (w - 1) _ _ L V' ltac:(unfold kpos; lia) K). auto.
  - right. exists i, r, w. split; [reflexivity|]. split; [assumption|]. split; [assumption|].
    split; [assumption|]. split; [lia|]. pose proof (live_next (kpos w i r)). pose proof (live_dur (kpos w i r + 1)). lia.
Qed.
Lemma fuel_ge2 r w : (2 <= end_fuel g r w)%nat.
Proof. unfold end_fuel. lia. Qed.

(** * The S elements *)
Lemma s_segs_range k d : forall m t, (forall j, (j < m)%nat -> live_seg g (k + Z.of_nat j) = (t + Z.of_nat j * d, d)) ->
  s_segs t d m = map (fun i => live_seg g (k + Z.of_nat i)) (seq 0 m).
Proof.
  intros m. revert k. induction m as [|m IH]; intros k t H; [reflexivity|].
  cbn [s_segs seq map]. rewrite (H 0%nat) by lia. f_equal; [f_equal; lia|].
  rewrite (IH (k + 1) (t + d)).
  - rewrite <- seq_shift, map_map. apply map_ext. intros a. f_equal. lia.
  - intros j Hj. replace (k + 1 + Z.of_nat j) with (k + Z.of_nat (S j)) by lia. rewrite H by lia. f_equal. lia.
Qed.
Lemma range_app a b c : a <= b + 1 -> b <= c -> live_range g a b ++ live_range g (b + 1) c = live_range g a c.
Proof.
  intros H1 H2. unfold live_range. replace (Z.to_nat (c - a + 1)) with (Z.to_nat (b - a + 1) + Z.to_nat (c - (b + 1) + 1))%nat by lia.
  rewrite seq_app, map_app. f_equal. rewrite Nat.add_0_l.
  assert (Sh : forall m s, seq s m = map (fun x => s + x)%nat (seq 0 m)).
  { induction m as [|m IH]; intros s; [reflexivity|]. cbn [seq map]. f_equal; [lia|]. rewrite (IH (S s)), (IH 1%nat), map_map.
    apply map_ext. intros; lia. }
  rewrite (Sh _ (Z.to_nat (b - a + 1))), map_map. apply map_ext. intros x. f_equal. lia.
Qed.
Lemma s_elem_read t d rep : 0 <= rep ->
  s_d (s_elem t d rep) = d /\ s_t (s_elem t d rep) = t
  /\ match s_r (s_elem t d rep) with Some r => r | None => 0 end = rep.
Proof. intros H. unfold s_elem. cbn. destruct (Z.ltb_spec 0 rep); repeat split; lia. Qed.

(** Reading one element that stands for part of a run. *)
Lemma read_run w i r r1 t0 b acc now : valid i r -> r <= r1 <= e_rep (ent tab i) ->
  (t0 = Some (live_start g (kpos w i r)) \/ (t0 = None /\ now = live_start g (kpos w i r))) ->
  kpos w i r1 <= b ->
  read_s (live_start g (kpos w i r1 + 1)) acc = live_range g (kpos w i r1 + 1) b ->
  read_s now (s_elem t0 (e_dur (ent tab i)) (r1 - r) :: acc) = live_range g (kpos w i r) b.
Proof.
  intros V Hr Ht Hb Hacc. cbn [read_s].
  destruct (s_elem_read t0 (e_dur (ent tab i)) (r1 - r) ltac:(lia)) as (-> & -> & ->).
  assert (Et : match t0 with Some t => t | None => now end = live_start g (kpos w i r)).
  { destruct Ht as [->|[-> ->]]; reflexivity. }
  rewrite Et. pose proof V as [Hi Hr0].
  assert (V1 : forall j, 0 <= j <= r1 - r -> valid i (r + j)) by (intros; split; [assumption|lia]).
  replace (live_start g (kpos w i r) + (r1 - r + 1) * e_dur (ent tab i)) with (live_start g (kpos w i r1 + 1)).
  2:{ rewrite live_next, kpos_end, kpos_start by (split; [assumption|lia]). lia. }
  rewrite Hacc. rewrite <- (range_app (kpos w i r) (kpos w i r1) b) by (unfold kpos in *; lia).
  f_equal. unfold live_range.
  replace (kpos w i r1 - kpos w i r + 1) with (r1 - r + 1) by (unfold kpos; lia).
  apply s_segs_range. intros j Hj.
  replace (kpos w i r + Z.of_nat j) with (kpos w i (r + Z.of_nat j)) by (unfold kpos; lia).
  rewrite (proj1 (kpos_facts w i (r + Z.of_nat j) (V1 (Z.of_nat j) ltac:(lia)))), kpos_start by assumption.
  f_equal. lia.
Qed.

(** The backward loop, when the run of the end position is met only there. *)
Lemma s_loop_ok ei er ew si sw b : 0 <= si < n -> 0 <= ei < n -> 0 <= er <= e_rep (ent tab ei) -> b = kpos ew ei er ->
  (sw = ew \/ (ew = sw + 1 /\ ei < si)) ->
  forall fuel i w acc,
  0 <= i < n -> (w - sw) * n + i - si < Z.of_nat fuel -> 0 <= (w - sw) * n + i - si ->
  ((w = ew /\ i = ei) \/ (w = ew /\ i < ei) \/ (w = sw /\ w <> ew)) ->
  (let nx := if (w =? ew) && (i =? ei) then b + 1 else kpos w i (e_rep (ent tab i)) + 1 in
   nx <= b + 1 /\ read_s (live_start g nx) acc = live_range g nx b) ->
  exists acc', s_loop fuel g ei er si sw i w acc = Ok acc'
    /\ let nx := if (sw =? ew) && (si =? ei) then b + 1 else kpos sw si (e_rep (ent tab si)) + 1 in
       nx <= b + 1 /\ read_s (live_start g nx) acc' = live_range g nx b.
Proof.
  intros Hsi Hei Her Eb Hw. induction fuel as [|f IH]; intros i w acc Hi Hf Hge Hreg Hinv; [lia|].
  cbn [s_loop]. destruct (negb (i =? si) || negb (w =? sw)) eqn:C.
  2:{ assert (i = si /\ w = sw) as [-> ->] by lia. exists acc. split; [reflexivity|exact Hinv]. }
  assert (C' : i <> si \/ w <> sw) by lia. clear C.
  assert (Hd : (w = sw /\ (w - sw) * n = 0 /\ (w - 1 - sw) * n = - n) \/ (w = sw + 1 /\ w = ew /\ (w - sw) * n = n /\ (w - 1 - sw) * n = 0)).
  { destruct Hw as [Hw|[Hw _]].
    - left. assert (w = sw) by lia. subst w. replace (sw - sw) with 0 by lia. replace (sw - 1 - sw) with (-1) by lia. lia.
    - destruct (Z.eq_dec w sw) as [->|]; [left|right].
      + replace (sw - sw) with 0 by lia. replace (sw - 1 - sw) with (-1) by lia. lia.
      + assert (w = sw + 1) by lia. subst w. replace (sw + 1 - sw) with 1 by lia. replace (sw + 1 - 1 - sw) with 0 by lia. lia. }
  rewrite (entry_at_ok i Hi); cbn [bind].
  pose proof (entries i Hi) as F; cbv zeta in F; pose proof n_pos as Hn.
  set (rr := if (w =? ew) && (i =? ei) then er else e_rep (ent tab i)).
  assert (Es : (if i =? ei then s_elem None (e_dur (ent tab i)) er
             else s_elem None (e_dur (ent tab i)) (e_rep (ent tab i))) = s_elem None (e_dur (ent tab i)) (rr - 0)).
  { unfold rr; rewrite Z.sub_0_r; destruct (Z.eqb_spec i ei); destruct (Z.eqb_spec w ew); cbn [andb]; try reflexivity.
    exfalso. lia. }
  rewrite Es; clear Es.
  assert (Hrr : 0 <= rr <= e_rep (ent tab i)) by
     (unfold rr; destruct (Z.eqb_spec w ew); destruct (Z.eqb_spec i ei); cbn [andb]; subst; lia).
  assert (Hnx : (if (w =? ew) && (i =? ei) then b + 1 else kpos w i (e_rep (ent tab i)) + 1) = kpos w i rr + 1) by
     (unfold rr; destruct (Z.eqb_spec w ew); destruct (Z.eqb_spec i ei); cbn [andb]; subst; lia).
  rewrite Hnx in Hinv; cbv zeta in Hinv; destruct Hinv as [Hb Hacc].
  assert (V0 : valid i 0) by (split; [assumption|lia]).
  pose proof (read_run w i 0 rr None b acc (live_start g (kpos w i 0)) V0 Hrr (or_intror (conj eq_refl eq_refl)) ltac:(lia) Hacc) as Hread.
  assert (Hk0 : kpos w i 0 <= kpos w i rr) by (unfold kpos; lia).
  destruct (Z.ltb_spec (i - 1) 0) as [K|K].
  - apply IH; try lia.
    cbv zeta. destruct ((w - 1 =? ew) && (n - 1 =? ei)) eqn:Q; [exfalso; lia|].
    pose proof (entries (n - 1) ltac:(lia)) as F1. cbv zeta in F1.
    replace (kpos (w - 1) (n - 1) (e_rep (ent tab (n - 1))) + 1) with (kpos w i 0); [split; [lia|exact Hread]|].
    unfold kpos. assert (i = 0) by lia. subst i. lia.
  - apply IH; try lia.
    cbv zeta. destruct ((w =? ew) && (i - 1 =? ei)) eqn:Q; [exfalso; lia|].
    pose proof (entries (i - 1) ltac:(lia)) as F1. cbv zeta in F1. replace (i - 1 + 1) with i in F1 by lia.
    replace (kpos w (i - 1) (e_rep (ent tab (i - 1))) + 1) with (kpos w i 0); [split; [lia|exact Hread]|].
    unfold kpos. lia.
Qed.

(** * create_segtimeline *)
Lemma starttime_ok w i r : valid i r -> seg_starttime g w i r = Ok (live_start g (kpos w i r)).
Proof. intros V. unfold seg_starttime. rewrite entry_at_ok by apply V. cbn [bind]. rewrite kpos_start by assumption. reflexivity. Qed.
Lemma first_within s a : first_listed g s a -> live_start g a <= s <= live_end g a.
Proof. intros (_ & [[H _]|[H _]]); [lia|]. pose proof (live_dur a). lia. Qed.
Lemma create_gen st en (uc : bool) sn0 si sr sw : 0 <= en ->
  (if uc then find_closest g (st * tg_timescale g) else find_latest g (st * tg_timescale g)) = Ok (Some (si, sr, sw)) ->
  valid si sr ->
  let a := kpos sw si sr in let e := en * tg_timescale g in
  (create_segtimeline g st en uc sn0 = Ok NoTimeline /\ e < live_end g 0)
  \/ exists b, last_complete g e b
     /\ (b < a -> create_segtimeline g st en uc sn0 = Ok (Timeline [] sn0))
     /\ (a <= b -> no_run_twice g a b ->
         exists l, create_segtimeline g st en uc sn0 = Ok (Timeline l (Some a))
                   /\ read_timeline l = live_range g a b).
Proof.
  intros Hen E3 Va. cbv zeta. destruct G as (_ & Hts & _).
  assert (He : 0 <= en * tg_timescale g) by (apply Z.mul_nonneg_nonneg; lia).
  unfold create_segtimeline. cbv zeta.
  set (s := st * tg_timescale g) in *. set (e := en * tg_timescale g) in *. clearbody s e.
  destruct (find_latest_ok e He) as (ei0 & er0 & ew0 & E1 & Hew0 & V0 & L0).
  rewrite E1. cbn [bind].
  destruct (end_loop_ok e ei0 er0 ew0 (end_fuel g er0 ew0) Hew0 V0 (first_within _ _ L0) (fuel_ge2 _ _))
    as [[E2 Hlt]|(ei & er & ew & E2 & Hew & V & Lb)]; rewrite E2; cbn [bind]; [left; auto|right].
  exists (kpos ew ei er). rewrite E3. cbn [bind].
  split; [assumption|].
  rewrite !starttime_ok by assumption. cbn [bind].
  split.
  - intros Hba. destruct (Z.ltb_spec (live_start g (kpos ew ei er)) (live_start g (kpos sw si sr))) as [K|K]; [reflexivity|].
    pose proof (live_start_lt _ _ Hba). pose proof (live_dur (kpos ew ei er)). lia.
  - intros Hab Hno.
    destruct (Z.ltb_spec (live_start g (kpos ew ei er)) (live_start g (kpos sw si sr))) as [K|K].
    { pose proof (live_start_mono _ _ Hab). lia. }
    unfold no_run_twice in Hno.
    rewrite (proj1 (proj2 (kpos_facts sw si sr Va))), (proj1 (proj2 (kpos_facts ew ei er V))) in Hno.
    rewrite (proj2 (proj2 (kpos_facts sw si sr Va))), (proj2 (proj2 (kpos_facts ew ei er V))) in Hno.
    pose proof V as [Hei Her]. pose proof Va as [Hsi Hsr].
    assert (Hno' : (ew = sw /\ si <= ei /\ (si = ei -> sr <= er)) \/ (ew = sw + 1 /\ ei < si)).
    { destruct Hno as [Hno|[Hno Hno2]]; [left|right; lia].
      subst sw. split; [reflexivity|].
      destruct (Z.lt_trichotomy ei si) as [Q|[Q|Q]].
      - exfalso.
        assert (B : live_end g (kpos ew ei er) <= live_start g (kpos ew si sr)).
        { rewrite kpos_start, kpos_end by assumption.
          pose proof (entries ei Hei) as F1. pose proof (entries si Hsi) as F2. cbv zeta in F1, F2.
          assert (B1 : nth (Z.to_nat (ei + 1)) (starts g) 0 <= nth (Z.to_nat si) (starts g) 0).
          { apply starts_mono. unfold starts. rewrite map_length. unfold tlen in *. lia. }
          unfold starts in B1. change 0 with (e_start e0) in B1. rewrite !map_nth in B1.
          destruct F1 as (F11 & F12 & _ & _ & _ & _ & _ & F1 & _). rewrite (proj2 (F1 ltac:(lia))) in B1.
          assert ((er + 1) * e_dur (ent tab ei) <= (e_rep (ent tab ei) + 1) * e_dur (ent tab ei)) by (apply Z.mul_le_mono_nonneg_r; lia).
          assert (0 <= sr * e_dur (ent tab si)) by (apply Z.mul_nonneg_nonneg; lia). lia. }
        pose proof (live_dur (kpos ew ei er)). lia.
      - subst. split; [lia|]. intros _. unfold kpos in Hab. lia.
      - split; [lia|]. intros; lia. }
    clear Hno.
    assert (Hinit : forall x, (if (ew =? ew) && (ei =? ei) then kpos ew ei er + 1 else x) = kpos ew ei er + 1)
      by (intros; rewrite !Z.eqb_refl; reflexivity).
    assert (Hnw : (ew - sw) * n = if ew =? sw then 0 else n).
    { destruct (Z.eqb_spec ew sw); [subst; lia|]. replace (ew - sw) with 1 by lia. lia. }
    destruct (s_loop_ok ei er ew si sw (kpos ew ei er) Hsi Hei Her eq_refl ltac:(lia) (s_fuel g ei ew si sw) ei ew [])
      as (acc & E4 & Hacc); try lia.
    { unfold s_fuel. lia. }
    { cbv zeta. rewrite Hinit. split; [lia|]. unfold live_range. replace (Z.to_nat (kpos ew ei er - (kpos ew ei er + 1) + 1)) with 0%nat by lia. reflexivity. }
    rewrite E4. cbn [bind]. rewrite (entry_at_ok si Hsi). cbn [bind].
    pose proof n_pos as Hn. rewrite (entry_at_ok 0) by lia. cbn [bind].
    unfold seg_number. rewrite (entry_at_ok si Hsi). cbn [bind].
    replace (sw * tg_per_wrap g + e_nr (ent tab si) + sr - tg_first g) with (kpos sw si sr) by (unfold kpos; lia).
    eexists. split; [reflexivity|].
    cbv zeta in Hacc. unfold read_timeline.
    set (r1 := if (sw =? ew) && (si =? ei) then er else e_rep (ent tab si)) in *.
    assert (Hr1 : sr <= r1 <= e_rep (ent tab si)).
    { unfold r1. destruct (Z.eqb_spec sw ew); destruct (Z.eqb_spec si ei); cbn [andb]; subst; lia. }
    assert (Hnx : (if (sw =? ew) && (si =? ei) then kpos ew ei er + 1 else kpos sw si (e_rep (ent tab si)) + 1) = kpos sw si r1 + 1).
    { unfold r1. destruct (Z.eqb_spec sw ew); destruct (Z.eqb_spec si ei); cbn [andb]; subst; reflexivity. }
    rewrite Hnx in Hacc. destruct Hacc as [Hb Hacc].
    assert (Hnr : (if negb (si =? ei) then e_rep (ent tab si) - sr
                   else if (n =? 1) && (er <? sr) then e_rep (ent tab 0) + er - sr else er - sr) = r1 - sr).
    { unfold r1. destruct (Z.eqb_spec si ei); destruct (Z.eqb_spec sw ew); cbn [andb negb]; try reflexivity; try (exfalso; lia).
      destruct (Z.ltb_spec er sr); [exfalso; lia|]. rewrite andb_false_r. reflexivity. }
    rewrite Hnr. apply read_run; try assumption; try lia. left. reflexivity.
Qed.
Lemma create_ok st en sn0 : 0 <= st -> 0 <= en ->
  let s := st * tg_timescale g in let e := en * tg_timescale g in
  exists a, first_listed g s a /\
  ((create_segtimeline g st en false sn0 = Ok NoTimeline /\ e < live_end g 0)
  \/ exists b, last_complete g e b
     /\ (b < a -> create_segtimeline g st en false sn0 = Ok (Timeline [] sn0))
     /\ (a <= b -> no_run_twice g a b ->
         exists l, create_segtimeline g st en false sn0 = Ok (Timeline l (Some a))
                   /\ read_timeline l = live_range g a b)).
Proof.
  intros Hst Hen. cbv zeta.
  assert (Hs : 0 <= st * tg_timescale g) by (apply Z.mul_nonneg_nonneg; [lia|]; destruct G as (_ & Hts & _); lia).
  destruct (find_latest_ok (st * tg_timescale g) Hs) as (si & sr & sw & E3 & Hsw & Va & La).
  exists (kpos sw si sr). split; [assumption|].
  exact (create_gen st en false sn0 si sr sw Hen E3 Va).
Qed.

(** find_closest_start *)
Lemma closest_loop_ok st dur rel rep : 0 < dur -> rel - (st + rep * dur) <= dur / 2 -> forall fuel r,
  0 <= r -> dur / 2 < rel - (st + r * dur) -> (Z.to_nat (rep - r) < fuel)%nat ->
  exists r', closest_loop fuel (st + r * dur) dur rel r rep = Some r' /\ r < r' <= rep /\ Z.abs (rel - (st + r' * dur)) <= dur / 2.
Proof.
  intros Hd Hrep. induction fuel as [|f IH]; intros r Hr Hinv Hf; [lia|].
  cbn [closest_loop]. destruct (Z.ltb_spec r rep) as [K|K].
  - cbv zeta. replace (st + r * dur + dur) with (st + (r + 1) * dur) by lia.
    destruct (Z.leb_spec (Z.abs (rel - (st + (r + 1) * dur))) (dur / 2)) as [Q|Q].
    + exists (r + 1). split; [reflexivity|]. split; lia.
    + assert (Hh : dur <= 2 * (dur / 2) + 1) by (Z.to_euclidean_division_equations; lia).
      rewrite Z.mul_add_distr_r in Q.
      destruct (IH (r + 1)) as (r' & E & B1 & B2); try lia.
      exists r'. split; [exact E|]. split; [lia|exact B2].
  - exfalso.
    assert (Hm : rep * dur <= r * dur) by (apply Z.mul_le_mono_nonneg_r; lia). lia.
Qed.
Lemma find_closest_ok act k : 0 <= act -> playing g act k ->
  (starts_run g (k + 1) -> act - live_start g k <= (live_end g k - live_start g k) / 2) ->
  exists i r w, find_closest g act = Ok (Some (i, r, w)) /\ valid i r /\ 0 <= kpos w i r
    /\ Z.abs (act - live_start g (kpos w i r)) <= (live_end g (kpos w i r) - live_start g (kpos w i r)) / 2.
Proof.
  intros Ha [Hk0 Hk] Hend. pose proof W_pos as HW. unfold find_closest.
  destruct (Z.eqb_spec W 0); [lia|]. cbv zeta.
  assert (Hw : 0 <= act / W) by (apply Z.div_pos; lia).
  destruct (Z.ltb_spec (act / W) 0); [lia|].
  destruct (bisect_run (act mod W) (Z.mod_pos_bound _ _ HW)) as (i & Ei & Hi & Hrel).
  rewrite Ei, (entry_at_ok i Hi). cbn [bind].
  pose proof (entries i Hi) as F. cbv zeta in F. destruct F as (F1 & F2 & F3 & F4 & F5 & F6 & _).
  set (e := ent tab i) in *.
  assert (Eact : act = act / W * W + act mod W) by (pose proof (Z.div_mod act W); lia).
  set (rel := act mod W) in *. set (w := act / W) in *.
  (* the segment playing is in run i *)
  assert (HV : forall r, 0 <= r <= e_rep e -> valid i r) by (intros; split; [exact Hi|fold e; lia]).
  assert (Hnn : forall r, 0 <= r -> 0 <= kpos w i r).
  { intros r Hr. unfold kpos. pose proof N_pos. assert (0 <= w * N) by (apply Z.mul_nonneg_nonneg; lia). fold e. lia. }
  assert (Hst : forall r, 0 <= r <= e_rep e -> act - live_start g (kpos w i r) = rel - (e_start e + r * e_dur e)
     /\ live_end g (kpos w i r) - live_start g (kpos w i r) = e_dur e).
  { intros r Hr. rewrite kpos_start, kpos_end by (apply HV; lia). fold e. lia. }
  assert (Hplay : exists r, k = kpos w i r /\ 0 <= r <= e_rep e).
  { set (r := (rel - e_start e) / e_dur e).
    assert (Hr : 0 <= r <= e_rep e).
    { split; [apply Z.div_pos; lia|]. assert (r < e_rep e + 1); [|lia]. apply Z.div_lt_upper_bound; lia. }
    exists r. split; [|exact Hr].
    assert (B : live_start g (kpos w i r) <= act < live_end g (kpos w i r)).
    { rewrite kpos_start, kpos_end by (apply HV; exact Hr). fold e.
      pose proof (Z.div_mod (rel - e_start e) (e_dur e)) as DM. pose proof (Z.mod_pos_bound (rel - e_start e) (e_dur e) F2).
      fold r in DM. rewrite Z.mul_add_distr_r, Z.mul_comm in *. lia. }
    destruct (Z.lt_trichotomy k (kpos w i r)) as [Q|[Q|Q]]; [|exact Q|].
    - pose proof (live_start_lt _ _ Q). lia.
    - pose proof (live_start_lt _ _ Q). lia. }
  assert (Hlast : rel - (e_start e + e_rep e * e_dur e) <= e_dur e / 2).
  { destruct Hplay as (r & -> & Hr). destruct (Hst r Hr) as [S1 S2]. rewrite S1, S2 in Hend.
    destruct (Z.eq_dec r (e_rep e)) as [->|Nr].
    - apply Hend. destruct (next_pos i (e_rep e) w) as [[i' r'] w'] eqn:En.
      rewrite (starts_run_next _ _ _ (HV (e_rep e) ltac:(lia)) _ _ _ En).
      unfold next_pos in En. fold e in En. rewrite Z.ltb_irrefl in En.
      destruct (i + 1 <? tlen g); injection En; intros; lia.
    - rewrite kpos_start, kpos_end in Hk by (apply HV; lia). fold e in Hk.
      assert ((r + 1) * e_dur e <= e_rep e * e_dur e) by (apply Z.mul_le_mono_nonneg_r; lia).
      assert (0 <= e_dur e / 2) by (apply Z.div_pos; lia). lia. }
  destruct (Z.leb_spec (Z.abs (rel - e_start e)) (e_dur e / 2)) as [Q|Q].
  - exists i, 0, w. split; [reflexivity|]. split; [apply HV; lia|]. split; [apply Hnn; lia|].
    destruct (Hst 0 ltac:(lia)) as [S1 S2]. rewrite S1, S2, Z.mul_0_l, Z.add_0_r. exact Q.
  - destruct (closest_loop_ok (e_start e) (e_dur e) rel (e_rep e) F2 Hlast (S (Z.to_nat (e_rep e))) 0) as (r' & E & B1 & B2); try lia.
    rewrite Z.mul_0_l, Z.add_0_r in E. rewrite E.
    exists i, r', w. split; [reflexivity|]. split; [apply HV; lia|]. split; [apply Hnn; lia|].
    destruct (Hst r' ltac:(lia)) as [S1 S2]. rewrite S1, S2. exact B2.
Qed.
End Gen.
