(** Theorems about SegmentTimeline (properties C26, C27, C28). *)
From Coq Require Import Lqa ZifyBool ZifyNat Lia.
From Verif Require Import Base BaseProofs ConfigModel ProxyModel ProxySpec ProxyProofs ProxyTheory Proxy2Theory.
From Verif Require Import TimelineModel TimelineSpec TimelineProofs.
Open Scope Z_scope.

(** *** Tables used in the examples: the video of the test content (600 segments
    of 6 s), and audio-like content with three runs in a loop of 12 s. *)
Definition ex_video : tgen := mk_tgen 90000 [mk_entry 1 599 0 540000] (3600 * 90000) 600 1.
Definition ex_audio : tgen :=
  mk_tgen 1000 [mk_entry 1 1 0 2005; mk_entry 3 0 4010 1990; mk_entry 4 2 6000 2000] 12000 6 1.
Example ex_tables : gen_ok ex_video /\ gen_ok ex_audio /\ on_grid ex_audio 2.
Proof.
  repeat split; try discriminate; try lia.
  intros k Hk. change (tg_per_wrap ex_audio) with 6 in Hk.
  assert (D : k = 0 \/ k = 1 \/ k = 2 \/ k = 3 \/ k = 4 \/ k = 5) by lia.
  destruct D as [->|[->|[->|[->|[-> | ->]]]]]; vm_compute; reflexivity.
Qed.

Lemma first_mono g s1 s2 a1 a2 : gen_ok g -> s1 <= s2 -> first_listed g s1 a1 -> first_listed g s2 a2 -> a1 <= a2.
Proof.
  intros G Hs (H01 & H1) (H02 & H2). destruct (Z.leb_spec a1 a2) as [K|K]; [assumption|exfalso].
  pose proof (live_start_lt g G _ _ K) as L. pose proof (live_dur g G a2). pose proof (live_dur g G a1).
  assert (E : s1 = s2 /\ s2 = live_end g a2 /\ live_start g a1 = s1) by (destruct H1 as [[H1 _]|[H1 _]]; destruct H2 as [[H2 _]|[H2 _]]; lia).
  destruct E as (-> & E2 & E3).
  assert (a1 = a2 + 1).
  { destruct (Z.eq_dec a1 (a2 + 1)) as [Q|Q]; [assumption|]. exfalso.
    pose proof (live_start_lt g G (a2 + 1) a1 ltac:(lia)). pose proof (live_dur g G (a2 + 1)). pose proof (live_next g G a2). lia. }
  subst a1. destruct H1 as [[H1 _]|[_ H1]]; [lia|]. destruct H2 as [[_ H2]|[H2 _]]; [|lia]. exact (H2 E2 H1).
Qed.
Lemma last_mono g e1 e2 b1 b2 : gen_ok g -> e1 <= e2 -> last_complete g e1 b1 -> last_complete g e2 b2 -> b1 <= b2.
Proof.
  intros G He (_ & H1 & _) (_ & _ & H2). destruct (Z.leb_spec b1 b2) as [K|K]; [assumption|exfalso].
  pose proof (live_end_mono g G (b2 + 1) b1 ltac:(lia)). lia.
Qed.

(** ** C26 *)
(** A window that touches no run of the table in two turns of the loop: the
    elements expand to the consecutive live segments from [a] to [b], where [b]
    is the last one complete at the window end. *)
Lemma C26_exact_partial_pf : forall g st en sn0, gen_ok g -> 0 <= st -> 0 <= en -> clean_window g st en ->
  let s := st * tg_timescale g in let e := en * tg_timescale g in
  exists a, first_listed g s a /\
  ((create_segtimeline g st en false sn0 = Ok NoTimeline /\ e < live_end g 0)
   \/ exists b, last_complete g e b
      /\ (b < a -> create_segtimeline g st en false sn0 = Ok (Timeline [] sn0))
      /\ (a <= b -> exists l, create_segtimeline g st en false sn0 = Ok (Timeline l (Some a))
                              /\ read_timeline l = live_range g a b)).
Proof.
  intros g st en sn0 G Hst Hen Hc. cbv zeta.
  destruct (create_ok g G st en sn0 Hst Hen) as (a & Ha & [N|(b & Hb & H1 & H2)]).
  - exists a. auto.
  - exists a. split; [assumption|]. right. exists b. split; [assumption|]. split; [assumption|].
    intros Hab. apply H2; [assumption|]. apply Hc; assumption.
Qed.
Lemma read_audio : forall l, create_segtimeline ex_audio 1 9 false None = Ok (Timeline l (Some 0)) ->
  read_timeline l = [(0, 2005); (2005, 2005); (4010, 1990); (6000, 2000)].
Proof. intros l H. vm_compute in H. injection H as <-. reflexivity. Qed.
Example ex_c26 : exists l,
  create_segtimeline ex_audio 1 9 false None = Ok (Timeline l (Some 0))
  /\ read_timeline l = [(0, 2005); (2005, 2005); (4010, 1990); (6000, 2000)]
  /\ live_range ex_audio 0 3 = read_timeline l.
Proof. eexists. split; [vm_compute; reflexivity|]. split; vm_compute; reflexivity. Qed.

(** Such windows: everything inside one turn of the loop. *)
Lemma C26_one_turn_pf : forall g st en, gen_ok g -> 0 <= st ->
  (st * tg_timescale g) / tg_wrap g = (en * tg_timescale g) / tg_wrap g -> clean_window g st en.
Proof.
  intros g st en G Hst Heq a b Ha Hb Hab. left.
  pose proof (W_pos g G) as HW.
  destruct (kpos_exists g G a) as (i & r & V & Ea). destruct (kpos_exists g G b) as (i' & r' & V' & Eb).
  unfold turn. set (wa := a / tg_per_wrap g) in *. set (wb := b / tg_per_wrap g) in *. clearbody wa wb.
  destruct Hb as (_ & Hb & _).
  assert (B1 : wb * tg_wrap g < live_end g b <= (wb + 1) * tg_wrap g).
  { rewrite Eb, (kpos_end g G _ _ _ V'). pose proof (entries g G i' (proj1 V')) as F. cbv zeta in F.
    destruct V' as [Hi' Hr'].
    set (d := e_dur _) in *. set (rp := e_rep _) in *.
    assert (0 < (r' + 1) * d <= (rp + 1) * d) by (split; [apply Z.mul_pos_pos; lia|apply Z.mul_le_mono_nonneg_r; lia]). lia. }
  assert (A1 : wa * tg_wrap g <= live_start g a /\ live_end g a <= (wa + 1) * tg_wrap g).
  { rewrite Ea, (kpos_start g G _ _ _ V), (kpos_end g G _ _ _ V). pose proof (entries g G i (proj1 V)) as F. cbv zeta in F.
    destruct V as [Hi Hr]. set (d := e_dur _) in *. set (rp := e_rep _) in *.
    assert (0 <= r * d) by (apply Z.mul_nonneg_nonneg; lia).
    assert ((r + 1) * d <= (rp + 1) * d) by (apply Z.mul_le_mono_nonneg_r; lia). lia. }
  set (s := st * tg_timescale g) in *. set (e := en * tg_timescale g) in *.
  assert (A2 : s < (wa + 1) * tg_wrap g).
  { destruct Ha as (_ & [[H1 H2]|[H1 _]]).
    - destruct (Z.eq_dec s (live_end g a)) as [Q|Q]; [|lia].
      specialize (H2 Q). rewrite Ea in H2.
      destruct (next_pos g i r wa) as [[i2 r2] w2] eqn:En.
      rewrite (starts_run_next g G _ _ _ V _ _ _ En) in H2.
      unfold next_pos in En. destruct (Z.ltb_spec r (e_rep (ent (tg_table g) i))) as [K|K].
      + rewrite Q, Ea, (kpos_end g G _ _ _ V). pose proof (entries g G i (proj1 V)) as F. cbv zeta in F.
        set (d := e_dur _) in *. set (rp := e_rep _) in *.
        assert ((r + 1) * d < (rp + 1) * d) by (apply Z.mul_lt_mono_pos_r; lia). lia.
      + destruct (i + 1 <? tlen g); injection En; intros; subst; lia.
    - pose proof (live_dur g G a). lia. }
  assert (A3 : wa <= s / tg_wrap g).
  { apply Z.div_le_lower_bound; [lia|]. rewrite Z.mul_comm. destruct Ha as (_ & [[H1 _]|[H1 _]]); lia. }
  assert (A4 : s / tg_wrap g < wa + 1) by (apply Z.div_lt_upper_bound; [lia|]; lia).
  assert (B2 : wb <= e / tg_wrap g) by (apply Z.div_le_lower_bound; [lia|]; lia).
  assert (wa <= wb).
  { destruct (Z.leb_spec wa wb); [assumption|]. exfalso.
    pose proof (live_end_mono g G a b Hab). pose proof (live_dur g G a).
    assert ((wb + 1) * tg_wrap g <= wa * tg_wrap g) by (apply Z.mul_le_mono_nonneg_r; lia). lia. }
  lia.
Qed.
Example ex_one_turn : clean_window ex_video 3500 3590 /\ clean_window ex_audio 13 23.
Proof.
  split; apply C26_one_turn_pf; try lia; try apply ex_tables; reflexivity.
Qed.

(** Away from segment boundaries the first segment is the one playing. *)
Lemma C26_first_playing_pf : forall g s a, gen_ok g -> first_listed g s a ->
  (forall k, live_end g k <> s) -> playing g s a.
Proof.
  intros g s a G (H0 & H) Hb. split; [assumption|]. pose proof (Hb a). pose proof (live_dur g G a). destruct H as [[H _]|[H _]]; lia.
Qed.
Example ex_first_playing : exists a, first_listed ex_audio 7000 a /\ playing ex_audio 7000 a.
Proof.
  exists 3. split.
  - split; [lia|]. left. vm_compute. repeat split; try discriminate; try reflexivity.
  - split; [lia|]. vm_compute. split; [discriminate|reflexivity].
Qed.

(** With use_closest the listing starts at a segment whose start is at most
    half a segment from the window start, unless the window starts in the
    second half of the last segment of a run. *)
Lemma C26_closest_partial_pf : forall g st en sn0 k, gen_ok g -> 0 <= st -> 0 <= en ->
  let s := st * tg_timescale g in let e := en * tg_timescale g in
  playing g s k ->
  (starts_run g (k + 1) -> s - live_start g k <= (live_end g k - live_start g k) / 2) ->
  exists a, 0 <= a /\ Z.abs (s - live_start g a) <= (live_end g a - live_start g a) / 2 /\
  ((create_segtimeline g st en true sn0 = Ok NoTimeline /\ e < live_end g 0)
   \/ exists b, last_complete g e b
      /\ (b < a -> create_segtimeline g st en true sn0 = Ok (Timeline [] sn0))
      /\ (a <= b -> no_run_twice g a b ->
          exists l, create_segtimeline g st en true sn0 = Ok (Timeline l (Some a))
                              /\ read_timeline l = live_range g a b)).
Proof.
  intros g st en sn0 k G Hst Hen. cbv zeta. intros Hp Hm.
  assert (Hs : 0 <= st * tg_timescale g) by (apply Z.mul_nonneg_nonneg; [lia|]; destruct G as (_ & Hts & _); lia).
  destruct (find_closest_ok g G _ k Hs Hp Hm) as (i & r & w & E & V & H0 & Habs).
  exists (kpos g w i r). split; [assumption|]. split; [assumption|].
  exact (create_gen g G st en true sn0 i r w Hen E V).
Qed.
Example ex_closest : exists l,
  playing ex_audio 3000 1 /\ ~ starts_run ex_audio 1
  /\ create_segtimeline ex_audio 3 9 true None = Ok (Timeline l (Some 1))
  /\ read_timeline l = [(2005, 2005); (4010, 1990); (6000, 2000)].
Proof.
  eexists. split; [split; [lia|vm_compute; split; [discriminate|reflexivity]]|].
  split; [vm_compute; intros [H|H]; apply H; reflexivity|].
  split; vm_compute; reflexivity.
Qed.

(** Finding: once the window spans the loop boundary, content in a single run
    (such as video) gets a listing with segments that do not exist yet: the
    segments after the boundary are counted twice. *)
Lemma C26_wrap_refuted_pf : exists g st en l sn t d,
  gen_ok g /\ 0 <= st <= en /\ create_segtimeline g st en false None = Ok (Timeline l sn)
  /\ In (t, d) (read_timeline l) /\ en * tg_timescale g < t + d.
Proof.
  exists ex_video, 3560, 3620. eexists. eexists. exists (3624 * 90000), 540000.
  split; [apply ex_tables|]. split; [lia|]. split; [vm_compute; reflexivity|].
  split; [|vm_compute; reflexivity]. vm_compute. do 11 right. left. reflexivity.
Qed.

(** What exactly is listed for single-run content across one loop boundary: as
    many segments too many as the last one is segments after the boundary. *)
Lemma C26_single_run_excess_pf : forall g e st en sn0 a b, gen_ok g -> tg_table g = [e] -> 0 <= st -> 0 <= en ->
  first_listed g (st * tg_timescale g) a -> last_complete g (en * tg_timescale g) b ->
  turn g b = turn g a + 1 -> b mod tg_per_wrap g < a mod tg_per_wrap g ->
  exists l, create_segtimeline g st en false sn0 = Ok (Timeline l (Some a))
            /\ read_timeline l = live_range g a (b + b mod tg_per_wrap g).
Proof.
  intros g e st en sn0 a b G Ht Hst Hen Ha Hb Hturn Hmod.
  assert (Hn : tlen g = 1) by (unfold tlen; rewrite Ht; reflexivity).
  assert (Hent : forall i, valid g i 0 -> ent (tg_table g) i = e).
  { intros i [Hi _]. rewrite Hn in Hi. rewrite Ht. replace i with 0 by lia. reflexivity. }
  pose proof (entries g G 0 ltac:(lia)) as F. cbv zeta in F.
  replace (ent (tg_table g) 0) with e in F by (rewrite Ht; reflexivity).
  pose proof G as (_ & Hts & _).
  assert (Hs : 0 <= st * tg_timescale g) by (apply Z.mul_nonneg_nonneg; lia).
  assert (He : 0 <= en * tg_timescale g) by (apply Z.mul_nonneg_nonneg; lia).
  unfold create_segtimeline. cbv zeta.
  set (s := st * tg_timescale g) in *. set (ee := en * tg_timescale g) in *. clearbody s ee.
  destruct (find_latest_ok g G ee He) as (ei0 & er0 & ew0 & E1 & Hew0 & V0 & L0).
  rewrite E1. cbn [bind].
  destruct (end_loop_ok g G ee ei0 er0 ew0 (end_fuel g er0 ew0) Hew0 V0 (first_within g G _ _ L0) (fuel_ge2 _ _ _))
    as [[E2 Hlt]|(ei & er & ew & E2 & Hew & V & Lb)]; rewrite E2; cbn [bind].
  { exfalso. destruct Hb as (Hb0 & Hb & _). pose proof (live_end_mono g G 0 b Hb0). lia. }
  destruct (find_latest_ok g G s Hs) as (si & sr & sw & E3 & Hsw & Va & La). rewrite E3. cbn [bind].
  assert (Eb : b = kpos g ew ei er) by (apply Z.le_antisymm; [exact (last_mono g ee ee _ _ G (Z.le_refl _) Hb Lb)|exact (last_mono g ee ee _ _ G (Z.le_refl _) Lb Hb)]).
  assert (Ea : a = kpos g sw si sr) by (apply Z.le_antisymm; [exact (first_mono g s s _ _ G (Z.le_refl _) Ha La)|exact (first_mono g s s _ _ G (Z.le_refl _) La Ha)]).
  pose proof (kpos_split g G ew ei er V) as [D1 M1]. pose proof (kpos_split g G sw si sr Va) as [D2 M2].
  unfold turn in Hturn. subst a b. rewrite D1, D2 in Hturn. rewrite M1, M2 in Hmod. rewrite M1.
  assert (Hei : ei = 0) by (destruct V; lia). assert (Hsi : si = 0) by (destruct Va; lia). subst ei si ew.
  replace (ent (tg_table g) 0) with e in * by (rewrite Ht; reflexivity).
  rewrite !(starttime_ok g G) by assumption. cbn [bind].
  assert (Hlt : kpos g sw 0 sr < kpos g (sw + 1) 0 er).
  { unfold kpos. destruct V as [_ V], Va as [_ Va]. rewrite Ht in *. cbn [nth Z.to_nat] in *. lia. }
  destruct (Z.ltb_spec (live_start g (kpos g (sw + 1) 0 er)) (live_start g (kpos g sw 0 sr))) as [K|K].
  { pose proof (live_start_mono g G _ _ (Z.lt_le_incl _ _ Hlt)). lia. }
  assert (En0 : entry_at g 0 = Ok e) by (rewrite (entry_at_ok g) by lia; rewrite Ht; reflexivity).
  assert (Hfuel : s_fuel g 0 (sw + 1) 0 sw = 2%nat) by (unfold s_fuel; rewrite Hn; replace ((sw + 1 - sw) * 1 + 0 - 0) with 1 by lia; reflexivity).
  rewrite Hfuel. cbn [s_loop]. rewrite !Z.eqb_refl. destruct (Z.eqb_spec (sw + 1) sw); [lia|]. cbn [negb orb].
  rewrite En0. cbn [bind]. change (0 - 1 <? 0) with true. cbn iota. rewrite Hn. change (1 - 1 =? 0) with true.
  replace (sw + 1 - 1) with sw by lia. rewrite Z.eqb_refl. cbn [negb orb bind].
  change (1 =? 1) with true. cbn [andb].
  destruct V as [_ Hr]. destruct Va as [_ Hra]. replace (ent (tg_table g) 0) with e in * by (rewrite Ht; reflexivity).
  destruct (Z.ltb_spec er sr) as [K2|K2]; [|lia].
  unfold seg_number. rewrite En0. cbn [bind].
  eexists. split.
  { f_equal. f_equal. f_equal. unfold kpos. rewrite Ht. cbn [nth Z.to_nat]. lia. }
  (* reading *)
  unfold read_timeline. cbn [read_s].
  destruct (s_elem_read (Some (live_start g (kpos g sw 0 sr))) (e_dur e) (e_rep e + er - sr) ltac:(lia)) as (-> & -> & ->).
  destruct (s_elem_read None (e_dur e) er ltac:(lia)) as (-> & -> & ->).
  rewrite app_nil_r.
  assert (Hall : forall k, 0 <= k -> live_seg g k = (k * e_dur e, e_dur e)).
  { intros k Hk. destruct (kpos_exists g G k) as (i & r & Vk & Ek).
    assert (i = 0) by (destruct Vk; lia). subst i. rewrite Ek at 1.
    rewrite (proj1 (kpos_facts g G _ _ _ Vk)). replace (ent (tg_table g) 0) with e by (rewrite Ht; reflexivity).
    f_equal. unfold kpos in Ek. replace (ent (tg_table g) 0) with e in Ek by (rewrite Ht; reflexivity).
    set (q := k / tg_per_wrap g) in *. clearbody q. subst k. destruct F as (F1 & F2 & F3 & F4 & F5 & F6 & F7 & _ & F9).
    destruct (F7 eq_refl) as [F71 F72]. destruct (F9 ltac:(lia)) as [F91 F92]. rewrite F92, F71, F72.
    replace (tg_per_wrap g) with (e_rep e + 1) by lia. ring. }
  set (A := kpos g sw 0 sr) in *.
  assert (HA : 0 <= A) by (destruct La; assumption).
  set (m1 := Z.to_nat (e_rep e + er - sr + 1)). set (m2 := Z.to_nat (er + 1)).
  rewrite (s_segs_range g A (e_dur e) m1).
  2:{ intros j _. unfold live_start. rewrite !Hall by lia. cbn [fst]. f_equal. lia. }
  rewrite (s_segs_range g (A + Z.of_nat m1) (e_dur e) m2).
  2:{ intros j _. unfold live_start. rewrite !Hall by lia. cbn [fst]. f_equal. unfold m1. rewrite Z2Nat.id by lia. ring. }
  unfold live_range.
  replace (Z.to_nat (kpos g (sw + 1) 0 er + (e_nr e - tg_first g + er) - A + 1)) with (m1 + m2)%nat.
  2:{ unfold A, kpos, m1, m2. replace (ent (tg_table g) 0) with e by (rewrite Ht; reflexivity).
      destruct F as (F1 & F2 & F3 & F4 & F5 & F6 & F7 & _ & F9).
      destruct (F7 eq_refl) as [F71 F72]. destruct (F9 ltac:(lia)) as [F91 F92]. lia. }
  rewrite seq_app, map_app. f_equal. rewrite Nat.add_0_l.
  assert (Sh : forall m x, seq x m = map (fun y => x + y)%nat (seq 0 m)).
  { induction m as [|m IH]; intros x; [reflexivity|]. cbn [seq map]. f_equal; [lia|]. rewrite (IH (S x)), (IH 1%nat), map_map.
    apply map_ext. intros; lia. }
  rewrite (Sh m2 m1), map_map. apply map_ext. intros y. f_equal. lia.
Qed.
Example ex_single_run : first_listed ex_video (3560 * 90000) 593 /\ last_complete ex_video (3620 * 90000) 602
  /\ turn ex_video 602 = turn ex_video 593 + 1 /\ 602 mod 600 < 593 mod 600.
Proof.
  split; [split; [lia|]; left; vm_compute; repeat split; try discriminate; try reflexivity|].
  split; [vm_compute; repeat split; try discriminate; try reflexivity|]. split; reflexivity.
Qed.

(** Finding: content in several runs is affected when the window is longer
    than a loop (a time-shift buffer longer than the content): the run in which
    the window ends is cut short in every turn. *)
Definition ex_two : tgen := mk_tgen 1 [mk_entry 1 1 0 3; mk_entry 3 0 6 2] 8 3 1.
Lemma C26_long_window_refuted_pf : exists g st en l sn a b,
  gen_ok g /\ 0 <= st <= en /\ (1 < List.length (tg_table g))%nat
  /\ first_listed g (st * tg_timescale g) a /\ last_complete g (en * tg_timescale g) b /\ a <= b
  /\ create_segtimeline g st en false None = Ok (Timeline l sn)
  /\ read_timeline l <> live_range g a b.
Proof.
  exists ex_two, 7, 20. eexists. eexists. exists 2, 6.
  split; [repeat split; try discriminate; lia|]. split; [lia|]. split; [cbn; lia|].
  split; [split; [lia|]; left; vm_compute; repeat split; try discriminate; try reflexivity|].
  split; [vm_compute; repeat split; try discriminate; try reflexivity|].
  split; [lia|]. split; [vm_compute; reflexivity|]. vm_compute. discriminate.
Qed.

(** Finding: a window starting exactly at a boundary inside a run starts with
    the segment that has just ended ("starts before or at start" says the
    comment in the code). *)
Lemma C26_boundary_refuted_pf : exists g st en l a t d rest,
  gen_ok g /\ 0 <= st <= en /\ playing g (st * tg_timescale g) a
  /\ create_segtimeline g st en false None = Ok (Timeline l (Some (a - 1)))
  /\ read_timeline l = (t, d) :: rest /\ t + d = st * tg_timescale g.
Proof.
  exists ex_video, 60, 90. eexists. exists 10. eexists. eexists. eexists.
  split; [apply ex_tables|]. split; [lia|].
  split; [split; [lia|]; vm_compute; split; [discriminate|reflexivity]|].
  split; [vm_compute; reflexivity|]. split; vm_compute; reflexivity.
Qed.

(** Finding: before the first segment is complete there is no element at all
    (a tuple is returned, which the manifest generation cannot insert). *)
Lemma C26_no_segment_refuted_pf : exists g st en,
  gen_ok g /\ 0 <= st <= en /\ create_segtimeline g st en false None = Ok NoTimeline.
Proof. exists ex_video, 0, 5. split; [apply ex_tables|]. split; [lia|]. vm_compute. reflexivity. Qed.

(** Finding: with use_closest, a start in the second half of the last segment
    of a run jumps to the last segment of the next run instead of the first. *)
Lemma C26_closest_refuted_pf : exists g st en l a k,
  gen_ok g /\ 0 <= st <= en /\ playing g (st * tg_timescale g) k
  /\ create_segtimeline g st en true None = Ok (Timeline l (Some a))
  /\ k + 1 < a /\ live_end g (k + 1) <= en * tg_timescale g.
Proof.
  exists (mk_tgen 10 [mk_entry 1 1 0 18; mk_entry 3 3 36 21] 120 6 1), 3, 12. eexists. exists 5, 1.
  split; [repeat split; try discriminate; lia|]. split; [lia|].
  split; [split; [lia|]; vm_compute; split; [discriminate|reflexivity]|].
  split; [vm_compute; reflexivity|]. split; [lia|]. vm_compute. discriminate.
Qed.

(** Finding: a run of duration 0 makes the search run for ever. *)
Lemma C26_zero_duration_refuted_pf : exists g st en,
  0 <= st <= en /\ create_segtimeline g st en false None = Err "diverges".
Proof.
  exists (mk_tgen 1 [mk_entry 1 1 0 3; mk_entry 3 0 6 0] 8 3 1), 0, 7. split; [lia|]. vm_compute. reflexivity.
Qed.

(** ** C28 *)
Lemma nth_range g a b i : nth_error (live_range g a b) i =
  if (Z.of_nat i <? b - a + 1) then Some (live_seg g (a + Z.of_nat i)) else None.
Proof.
  unfold live_range. rewrite nth_error_map.
  destruct (Z.ltb_spec (Z.of_nat i) (b - a + 1)) as [K|K].
  - rewrite (nth_error_nth' _ 0%nat) by (rewrite seq_length; lia). rewrite seq_nth by lia. reflexivity.
  - rewrite (proj2 (nth_error_None _ _)) by (rewrite seq_length; lia). reflexivity.
Qed.
Lemma create_range g st en sn0 l a : gen_ok g -> 0 <= st -> 0 <= en -> clean_window g st en ->
  create_segtimeline g st en false sn0 = Ok (Timeline l (Some a)) -> l <> [] ->
  exists b, first_listed g (st * tg_timescale g) a /\ last_complete g (en * tg_timescale g) b /\ a <= b
            /\ read_timeline l = live_range g a b.
Proof.
  intros G Hst Hen Hc E Hl. destruct (C26_exact_partial_pf g st en sn0 G Hst Hen Hc) as (a' & Ha & [[N _]|(b & Hb & H1 & H2)]).
  - congruence.
  - destruct (Z.ltb_spec b a') as [K|K]; [rewrite (H1 K) in E; injection E; congruence|].
    destruct (H2 K) as (l' & E' & R). rewrite E' in E. injection E as <- <-. exists b. auto.
Qed.
(** The listings of two moments (later window start and end): the later one
    starts and ends no earlier, and a segment number in both has the same time
    and duration. *)
Lemma C28_consistent_partial_pf : forall g st1 en1 st2 en2 sn1 sn2 l1 l2 a1 a2,
  gen_ok g -> 0 <= st1 <= st2 -> 0 <= en1 <= en2 -> clean_window g st1 en1 -> clean_window g st2 en2 ->
  create_segtimeline g st1 en1 false sn1 = Ok (Timeline l1 (Some a1)) -> l1 <> [] ->
  create_segtimeline g st2 en2 false sn2 = Ok (Timeline l2 (Some a2)) -> l2 <> [] ->
  a1 <= a2
  /\ a1 + Z.of_nat (List.length (read_timeline l1)) <= a2 + Z.of_nat (List.length (read_timeline l2))
  /\ forall i j x y, a1 + Z.of_nat i = a2 + Z.of_nat j ->
     nth_error (read_timeline l1) i = Some x -> nth_error (read_timeline l2) j = Some y -> x = y.
Proof.
  intros g st1 en1 st2 en2 sn1 sn2 l1 l2 a1 a2 G Hst Hen C1 C2 E1 N1 E2 N2.
  destruct (create_range g st1 en1 sn1 l1 a1 G ltac:(lia) ltac:(lia) C1 E1 N1) as (b1 & F1 & L1 & R1 & ->).
  destruct (create_range g st2 en2 sn2 l2 a2 G ltac:(lia) ltac:(lia) C2 E2 N2) as (b2 & F2 & L2 & R2 & ->).
  pose proof G as (_ & Hts & _).
  split; [apply (first_mono g (st1 * tg_timescale g) (st2 * tg_timescale g) _ _ G ltac:(apply Z.mul_le_mono_nonneg_r; lia) F1 F2)|].
  assert (b1 <= b2) by (apply (last_mono g (en1 * tg_timescale g) (en2 * tg_timescale g) _ _ G ltac:(apply Z.mul_le_mono_nonneg_r; lia) L1 L2)).
  split; [unfold live_range; rewrite !map_length, !seq_length; lia|].
  intros i j x y Hij. rewrite !nth_range, Hij.
  destruct (Z.ltb_spec (Z.of_nat i) (b1 - a1 + 1)); [|discriminate].
  destruct (Z.ltb_spec (Z.of_nat j) (b2 - a2 + 1)); [|discriminate]. congruence.
Qed.
Example ex_c28 : exists l1 l2,
  create_segtimeline ex_video 60 100 false None = Ok (Timeline l1 (Some 9)) /\ l1 <> [] /\ clean_window ex_video 60 100
  /\ create_segtimeline ex_video 70 110 false None = Ok (Timeline l2 (Some 11)) /\ l2 <> [] /\ clean_window ex_video 70 110.
Proof.
  eexists. eexists. split; [vm_compute; reflexivity|]. split; [discriminate|].
  split; [apply C26_one_turn_pf; try lia; [apply ex_tables|reflexivity]|].
  split; [vm_compute; reflexivity|]. split; [discriminate|].
  apply C26_one_turn_pf; try lia; [apply ex_tables|reflexivity].
Qed.

(** ** C27 *)
Lemma live_period g k : gen_ok g ->
  live_end g k = k / tg_per_wrap g * tg_wrap g + live_end g (k mod tg_per_wrap g).
Proof.
  intros G. pose proof (N_pos g G) as HN. unfold live_end, live_seg. cbv zeta. rewrite (N_eq g G).
  rewrite Z.mod_mod by lia. rewrite (Z.div_small (k mod tg_per_wrap g)) by (apply Z.mod_pos_bound; lia).
  destruct (nth (Z.to_nat (k mod tg_per_wrap g)) (table_segs (tg_table g)) (0, 0)) as [s d]. cbn [fst snd]. lia.
Qed.
Lemma grid_end g d k : gen_ok g -> on_grid g d ->
  10 * Z.abs (live_end g k - (k + 1) * d * tg_timescale g) < tg_timescale g.
Proof.
  intros G [HW HG]. pose proof (N_pos g G) as HN. rewrite (live_period g k G), HW.
  specialize (HG (k mod tg_per_wrap g) (Z.mod_pos_bound _ _ HN)).
  pose proof (Z.div_mod k (tg_per_wrap g) ltac:(lia)) as DM.
  set (q := k / tg_per_wrap g) in *. set (m := k mod tg_per_wrap g) in *. clearbody q m.
  replace (q * (d * tg_per_wrap g * tg_timescale g) + live_end g m - (k + 1) * d * tg_timescale g)
    with (live_end g m - (m + 1) * d * tg_timescale g); [assumption|]. subst k. ring.
Qed.
Lemma start_0 g : gen_ok g -> live_start g 0 = 0.
Proof.
  intros G. pose proof (n_pos g G) as Hn. pose proof (entries g G 0 ltac:(lia)) as F. cbv zeta in F.
  assert (V : valid g 0 0) by (split; lia).
  assert (E : kpos g 0 0 0 = 0) by (unfold kpos; lia).
  rewrite <- E at 1. rewrite (kpos_start g G _ _ _ V). lia.
Qed.
Lemma grid_start g d k : gen_ok g -> on_grid g d ->
  10 * Z.abs (live_start g k - k * d * tg_timescale g) < tg_timescale g.
Proof.
  intros G H. pose proof (grid_end g d (k - 1) G H) as E. rewrite <- (live_next g G) in E.
  replace (k - 1 + 1) with k in E by lia. exact E.
Qed.

(** Number and time addressing of the listing of a single-period manifest
    without time offset and start number. *)
Lemma C27_served_partial_pf : forall c g now a0 tsbd st en uc sn0 l sn,
  wf_cfg c -> gen_ok g -> on_grid g (c_seg_dur c) ->
  c_start_nr c = 0 -> c_timeoffset c = None -> c_ato c = Some a0 -> (0 <= a0)%Q ->
  c_tsbd c = Some tsbd -> 0 <= tsbd -> c_stop_time c = None -> c_last_nrs c = [] -> c_aet c = None -> c_ast c <= now ->
  segtimeline_window c now 0 None = Ok (st, en, uc) ->
  clean_window g st en ->
  create_segtimeline g st en uc sn0 = Ok (Timeline l sn) ->
  forall i t d, nth_error (read_timeline l) i = Some (t, d) ->
  exists a, sn = Some a /\ let k := a + Z.of_nat i in
    (t, d) = live_seg g k
    /\ (media_request c k -> exists sv, get_media c (inject_Z now) = Ok (Serve sv))
    /\ (c_filename c = ("t" ++ print_nat t ++ ".m4s")%string ->
        get_timescale (c_rel_path c) (c_reps c) = Some (tg_timescale g) -> request_nr c = Ok k).
Proof.
  intros c g now a0 tsbd st en uc sn0 l sn W G Hgrid Hsnr Hto Hato Ha0 Htsbd Hb Hstop Hlast Haet Hast Hwin Hclean E i t d Hn.
  unfold segtimeline_window in Hwin. rewrite Htsbd, Hstop in Hwin.
  injection Hwin as Est Een <-. rewrite Z.add_0_r in Est.
  assert (Hl : l <> []) by (intros ->; destruct i; discriminate).
  assert (Hst0 : 0 <= st) by lia. assert (Hen0 : 0 <= en) by lia.
  destruct (C26_exact_partial_pf g st en sn0 G Hst0 Hen0 Hclean) as (a & Ha & [[N _]|(b & Hb' & H1 & H2)]); [congruence|].
  destruct (Z.ltb_spec b a) as [K|K]; [rewrite (H1 K) in E; injection E; congruence|].
  destruct (H2 K) as (l' & E' & R). rewrite E' in E. injection E as <- <-.
  exists a. split; [reflexivity|]. rewrite R, nth_range in Hn.
  destruct (Z.ltb_spec (Z.of_nat i) (b - a + 1)) as [Q|Q]; [|discriminate]. injection Hn as Hn. cbv zeta.
  split; [symmetry; exact Hn|].
  set (k := a + Z.of_nat i) in *. assert (Hk : a <= k <= b) by lia. 
  assert (H0k : 0 <= k) by (destruct Ha; lia). clearbody k.
  pose proof (wf_dur c W) as Hd. pose proof G as (_ & Hts & _).
  split.
  - intros MR.
    destruct (C01_media_window_exact_pf c k (inject_Z now) a0 tsbd W MR Hato Htsbd Hstop Hlast Haet) as [Hiff _].
    apply Hiff. unfold first_nr. rewrite Hsnr, Hto. change (0 =? -1) with false.
    pose proof (grid_end g (c_seg_dur c) k G Hgrid) as D.
    pose proof (live_end_mono g G k b ltac:(lia)) as M1. pose proof (live_end_mono g G a k ltac:(lia)) as M2.
    destruct Hb' as (_ & Hb1 & _). pose proof (first_within g G _ _ Ha) as Hfw.
    set (T := tg_timescale g) in *. set (D0 := c_seg_dur c) in *.
    replace (k - 0 + 1) with (k + 1) by lia. replace (k - 0 + 2) with (k + 2) by lia.
    assert (U : (k + 1) * D0 <= en).
    { assert ((k + 1) * D0 < en + 1); [|lia].
      apply (Z.mul_lt_mono_pos_r T); [lia|]. rewrite Z.mul_add_distr_r. lia. }
    assert (L : st <= (k + 1) * D0).
    { assert (st < (k + 1) * D0 + 1); [|lia].
      apply (Z.mul_lt_mono_pos_r T); [lia|]. rewrite (Z.mul_add_distr_r ((k + 1) * D0)). lia. }
    split; [assumption|]. split.
    + assert ((inject_Z (c_ast c + (k + 1) * D0) <= inject_Z now)%Q) by (rewrite <- Zle_Qle; lia). lra.
    + rewrite <- Zle_Qle. replace (k + 2) with (k + 1 + 1) by lia. rewrite (Z.mul_add_distr_r (k + 1)). lia.
  - intros Hf Hg.
    assert (Et : t = live_start g k) by (unfold live_start; rewrite Hn; reflexivity).
    pose proof (grid_start g (c_seg_dur c) k G Hgrid) as D.
    pose proof (live_start_mono g G 0 k H0k) as M. rewrite (start_0 g G) in M.
    apply (C29_time_addressing_pf c t k (tg_timescale g)); try assumption; try lia.
    assert (tg_timescale g <= c_seg_dur c * tg_timescale g) by (rewrite <- (Z.mul_1_l (tg_timescale g)) at 1; apply Z.mul_le_mono_nonneg_r; lia).
    rewrite Et. replace (2 * k * c_seg_dur c * tg_timescale g) with (2 * (k * c_seg_dur c * tg_timescale g)) by ring. lia.
Qed.

(** /livesim/tsbd_60/testpic/V1/<n>.m4s *)
Definition ex_tl (opts : list string) (file : string) (now : Z) : config :=
  match ex_cfg (List.app opts ["testpic"; "V1"; file]%string) now with Ok c => c | Err _ => config_init "" end.
Lemma ex_video_grid : on_grid ex_video 6.
Proof.
  split; [reflexivity|]. intros k Hk. change (tg_per_wrap ex_video) with 600 in Hk.
  pose proof (proj1 ex_tables) as G.
  assert (V : valid ex_video 0 k) by (split; [vm_compute; split; [discriminate|reflexivity]|cbn; lia]).
  assert (E : kpos ex_video 0 0 k = k) by (cbn; lia).
  rewrite <- E at 1. rewrite (kpos_end ex_video G _ _ _ V). cbn [ex_video tg_timescale tg_wrap tg_table nth Z.to_nat e_start e_dur]. lia.
Qed.
Example ex_c27 : exists l, let c := ex_tl ["tsbd_60"%string] "100.m4s" 610 in
  wf_cfg c /\ c_seg_dur c = 6 /\ c_start_nr c = 0 /\ c_timeoffset c = None /\ c_ato c = Some 0%Q /\ c_tsbd c = Some 60
  /\ c_stop_time c = None /\ c_last_nrs c = [] /\ c_aet c = None /\ c_ast c = 0
  /\ generator c 90000 (tg_table ex_video) = ex_video
  /\ segtimeline_window c 610 0 None = Ok (550, 610, false) /\ clean_window ex_video 550 610
  /\ create_segtimeline ex_video 550 610 false None = Ok (Timeline l (Some 91))
  /\ nth_error (read_timeline l) 9 = Some (54000000, 540000)
  /\ media_request c 100 /\ get_media c 610 = Ok (Serve (mkServed 101 100 0 false 600 false)).
Proof.
  eexists. cbv zeta. split.
  { constructor; try reflexivity; [exists 60; reflexivity|]. intros H. exfalso. apply H. reflexivity. }
  do 11 (split; [vm_compute; reflexivity|]).
  split; [apply C26_one_turn_pf; try lia; [apply ex_tables|reflexivity]|].
  split; [vm_compute; reflexivity|]. split; [vm_compute; reflexivity|].
  split; [|vm_compute; reflexivity]. constructor; vm_compute; try reflexivity; discriminate.
Qed.

(** Finding: after the first loop, the manifest of single-run content lists
    segments that the media server refuses as too early. *)
Lemma C27_wrap_refuted_pf : exists parts now c g st en uc l sn i t d,
  c = ex_tl ["tsbd_60"%string] "604.m4s" 3620 /\ parts = ["tsbd_60"; "testpic"; "V1"; "604.m4s"]%string /\ now = 3620
  /\ gen_ok g /\ on_grid g 6 /\ generator c 90000 (tg_table g) = g
  /\ segtimeline_window c now 0 None = Ok (st, en, uc)
  /\ create_segtimeline g st en uc None = Ok (Timeline l (Some sn))
  /\ nth_error (read_timeline l) i = Some (t, d) /\ sn + Z.of_nat i = 604
  /\ ex_get parts (inject_Z now) = Ok (Refuse RTooEarly).
Proof.
  do 2 eexists. exists (ex_tl ["tsbd_60"%string] "604.m4s" 3620), ex_video. do 5 eexists. exists 11%nat. do 2 eexists.
  split; [reflexivity|]. split; [reflexivity|]. split; [reflexivity|]. split; [apply ex_tables|].
  split; [exact ex_video_grid|]. split; [vm_compute; reflexivity|]. split; [vm_compute; reflexivity|].
  split; [vm_compute; reflexivity|]. split; [vm_compute; reflexivity|]. split; vm_compute; reflexivity.
Qed.

(** Finding: the numbers announced with segtimelinenr_1 ignore snr_N: the
    segment announced as 91 is not the one the server delivers as 91. *)
Lemma C27_start_number_refuted_pf : exists c g now st en uc l sn t d sv,
  c = ex_tl ["tsbd_60"; "snr_50"]%string "91.m4s" 610 /\ gen_ok g /\ on_grid g 6 /\ generator c 90000 (tg_table g) = g /\ now = 610
  /\ segtimeline_window c now 0 None = Ok (st, en, uc)
  /\ create_segtimeline g st en uc None = Ok (Timeline l (Some sn)) /\ sn = 91
  /\ nth_error (read_timeline l) 0 = Some (t, d) /\ t = 91 * 6 * 90000
  /\ request_nr c = Ok 91
  /\ segment_reply c (inject_Z 260) 91 = Ok (Serve sv) /\ sv_time sv = (91 - 50) * 6
  /\ ex_get ["tsbd_60"; "snr_50"; "testpic"; "V1"; "91.m4s"]%string (inject_Z now) = Ok (Refuse RTooLate).
Proof.
  exists (ex_tl ["tsbd_60"; "snr_50"]%string "91.m4s" 610), ex_video, 610. do 8 eexists.
  split; [reflexivity|]. split; [apply ex_tables|]. split; [exact ex_video_grid|].
  split; [vm_compute; reflexivity|]. split; [reflexivity|].
  split; [vm_compute; reflexivity|]. split; [vm_compute; reflexivity|]. split; [vm_compute; reflexivity|].
  split; [vm_compute; reflexivity|]. split; [vm_compute; reflexivity|]. split; [vm_compute; reflexivity|].
  split; [vm_compute; reflexivity|]. split; vm_compute; reflexivity.
Qed.
(** Finding: with a time offset the listed times are still relative to the
    availability start time, and the server refuses them. *)
Lemma C27_timeoffset_refuted_pf : exists c g now st en uc l sn t d,
  c = ex_tl ["start_600"; "timeoffset_300"]%string "t0.m4s" 640 /\ gen_ok g /\ on_grid g 6 /\ generator c 90000 (tg_table g) = g /\ now = 640
  /\ segtimeline_window c now 0 None = Ok (st, en, uc)
  /\ create_segtimeline g st en uc None = Ok (Timeline l (Some sn))
  /\ nth_error (read_timeline l) 0 = Some (t, d) /\ t = 0
  /\ ex_get ["start_600"; "timeoffset_300"; "testpic"; "V1"; "t0.m4s"]%string (inject_Z now) = Ok (Refuse RBeforeFirst).
Proof.
  exists (ex_tl ["start_600"; "timeoffset_300"]%string "t0.m4s" 640), ex_video, 640. do 7 eexists.
  split; [reflexivity|]. split; [apply ex_tables|]. split; [exact ex_video_grid|].
  split; [vm_compute; reflexivity|]. split; [reflexivity|].
  split; [vm_compute; reflexivity|]. split; [vm_compute; reflexivity|]. split; [vm_compute; reflexivity|].
  split; vm_compute; reflexivity.
Qed.
