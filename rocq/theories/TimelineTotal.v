(** create_segtimeline answers for every table that describes a loop, once the first
    segment is over. *)
From Verif Require Import Base BaseProofs TimelineModel TimelineSpec TimelineProofs.
From Coq Require Import Lia ZArith.
Open Scope Z_scope.

Lemma closest_loop_range dur rel rep : forall fuel start r r',
  closest_loop fuel start dur rel r rep = Some r' -> r < r' <= rep.
Proof.
  induction fuel as [|f IH]; intros start r r' E; [discriminate E|].
  cbn [closest_loop] in E. destruct (Z.ltb_spec r rep) as [K|K]; [|discriminate E]. cbv zeta in E.
  destruct (Z.abs (rel - (start + dur)) <=? dur / 2).
  - injection E as <-. lia.
  - apply IH in E. lia.
Qed.

Section Total.
Variable g : tgen.
Hypothesis G : gen_ok g.

Lemma find_closest_total act : 0 <= act ->
  exists i r w, find_closest g act = Ok (Some (i, r, w)) /\ valid g i r.
Proof.
  intros Ha. pose proof (W_pos g G) as HW. unfold find_closest.
  destruct (Z.eqb_spec (tg_wrap g) 0); [lia|]. cbv zeta.
  assert (Hw : 0 <= act / tg_wrap g) by (apply Z.div_pos; lia).
  destruct (Z.ltb_spec (act / tg_wrap g) 0); [lia|].
  destruct (bisect_run g G (act mod tg_wrap g) (Z.mod_pos_bound _ _ HW)) as (i & Ei & Hi & Hrel).
  rewrite Ei, (entry_at_ok g i Hi). cbn [bind].
  pose proof (entries g G i Hi) as F. cbv zeta in F.
  destruct (Z.abs (act mod tg_wrap g - e_start (ent (tg_table g) i)) <=? e_dur (ent (tg_table g) i) / 2).
  { exists i, 0, (act / tg_wrap g). split; [reflexivity|]. split; [exact Hi|lia]. }
  destruct (closest_loop _ _ _ _ _ _) as [r|] eqn:E.
  { apply closest_loop_range in E. exists i, r, (act / tg_wrap g). split; [reflexivity|]. split; [exact Hi|lia]. }
  destruct (Z.leb_spec (tlen g) (i + 1)) as [K|K].
  - pose proof (n_pos g G) as Hn. rewrite (entry_at_ok g 0) by lia. cbn [bind].
    pose proof (entries g G 0 ltac:(lia)) as F0. cbv zeta in F0.
    do 3 eexists. split; [reflexivity|]. split; lia.
  - rewrite (entry_at_ok g (i + 1)) by lia. cbn [bind].
    pose proof (entries g G (i + 1) ltac:(lia)) as F0. cbv zeta in F0.
    do 3 eexists. split; [reflexivity|]. split; lia.
Qed.

Lemma s_loop_total ei er si sw : 0 <= si < tlen g ->
  forall fuel i w acc, 0 <= i < tlen g -> 0 <= (w - sw) * tlen g + i - si < Z.of_nat fuel ->
  exists acc', s_loop fuel g ei er si sw i w acc = Ok acc'.
Proof.
  intros Hsi. induction fuel as [|f IH]; intros i w acc Hi Hm; [lia|].
  cbn [s_loop]. destruct (negb (i =? si) || negb (w =? sw)) eqn:C; [|eexists; reflexivity].
  assert (C' : i <> si \/ w <> sw) by lia. clear C.
  rewrite (entry_at_ok g i Hi). cbn [bind].
  assert (P : 0 < (w - sw) * tlen g + i - si).
  { destruct (Z.eq_dec w sw) as [->|Hw].
    - replace (sw - sw) with 0 in * by lia. lia.
    - destruct (Z.eq_dec ((w - sw) * tlen g + i - si) 0) as [Q|Q]; [|lia]. exfalso.
      assert (K : (w - sw) * tlen g = si - i) by lia.
      destruct (Z.lt_trichotomy (w - sw) 0) as [L|[L|L]]; [|lia|].
      + assert ((w - sw) * tlen g <= (-1) * tlen g) by (apply Z.mul_le_mono_nonneg_r; lia). lia.
      + assert (1 * tlen g <= (w - sw) * tlen g) by (apply Z.mul_le_mono_nonneg_r; lia). lia. }
  destruct (Z.ltb_spec (i - 1) 0) as [K|K]; apply IH; lia.
Qed.

Lemma nr_mono i : 0 <= i -> forall d, 0 <= d -> i + 1 + d < tlen g ->
  e_nr (ent (tg_table g) i) + e_rep (ent (tg_table g) i) + 1 <= e_nr (ent (tg_table g) (i + 1 + d)).
Proof.
  intros Hi. apply (natlike_ind (fun d => i + 1 + d < tlen g ->
    e_nr (ent (tg_table g) i) + e_rep (ent (tg_table g) i) + 1 <= e_nr (ent (tg_table g) (i + 1 + d)))).
  - intros H. pose proof (entries g G i ltac:(lia)) as F. cbv zeta in F.
    replace (i + 1 + 0) with (i + 1) in * by lia. lia.
  - intros d Hd IH H. specialize (IH ltac:(lia)).
    pose proof (entries g G (i + 1 + d) ltac:(lia)) as F. cbv zeta in F.
    replace (i + 1 + Z.succ d) with (i + 1 + d + 1) in * by lia. lia.
Qed.

Lemma later_position w i r w' i' r' : valid g i r -> valid g i' r' -> kpos g w i r <= kpos g w' i' r' ->
  0 <= (w' - w) * tlen g + i' - i.
Proof.
  intros V V' H. pose proof (N_pos g G) as HN.
  pose proof (kpos_split g G w i r V) as [S1 _]. pose proof (kpos_split g G w' i' r' V') as [S2 _].
  assert (Hw : w <= w') by (rewrite <- S1, <- S2; apply Z.div_le_mono; lia).
  destruct V as [Hi Hr]. destruct V' as [Hi' Hr'].
  destruct (Z.eq_dec w w') as [->|N].
  - replace (w' - w') with 0 by lia. destruct (Z.ltb_spec i' i) as [K|K]; [|lia]. exfalso.
    pose proof (nr_mono i' ltac:(lia) (i - i' - 1) ltac:(lia) ltac:(lia)) as M.
    replace (i' + 1 + (i - i' - 1)) with i in M by lia. unfold kpos in H. lia.
  - assert (1 * tlen g <= (w' - w) * tlen g) by (apply Z.mul_le_mono_nonneg_r; lia). lia.
Qed.

Lemma create_total st en uc sn0 : 0 <= st -> 0 <= en -> live_end g 0 <= en * tg_timescale g ->
  exists l m, create_segtimeline g st en uc sn0 = Ok (Timeline l m).
Proof.
  intros Hst Hen Hfirst. pose proof G as (_ & Hts & _).
  assert (He : 0 <= en * tg_timescale g) by (apply Z.mul_nonneg_nonneg; lia).
  assert (Hs : 0 <= st * tg_timescale g) by (apply Z.mul_nonneg_nonneg; lia).
  unfold create_segtimeline. cbv zeta.
  destruct (find_latest_ok g G _ He) as (ei0 & er0 & ew0 & E1 & Hew0 & V0 & L0).
  rewrite E1. cbn [bind].
  destruct (end_loop_ok g G _ ei0 er0 ew0 (end_fuel g er0 ew0) Hew0 V0 (first_within g G _ _ L0) (fuel_ge2 g _ _))
    as [[E2 Hlt]|(ei & er & ew & E2 & Hew & V & Lb)]; [lia|]. rewrite E2. cbn [bind].
  assert (A : exists si sr sw, (if uc then find_closest g (st * tg_timescale g) else find_latest g (st * tg_timescale g))
              = Ok (Some (si, sr, sw)) /\ valid g si sr).
  { destruct uc; [apply find_closest_total; exact Hs|].
    destruct (find_latest_ok g G _ Hs) as (i & r & w & E & _ & Vs & _). exists i, r, w. auto. }
  destruct A as (si & sr & sw & E3 & Vs). rewrite E3. cbn [bind].
  rewrite !(starttime_ok g G) by assumption. cbn [bind].
  destruct (Z.ltb_spec (live_start g (kpos g ew ei er)) (live_start g (kpos g sw si sr))) as [K|K].
  { do 2 eexists. reflexivity. }
  assert (Hk : kpos g sw si sr <= kpos g ew ei er).
  { destruct (Z.leb_spec (kpos g sw si sr) (kpos g ew ei er)) as [Q|Q]; [exact Q|]. exfalso.
    pose proof (live_start_lt g G _ _ Q). pose proof (live_dur g G (kpos g ew ei er)). lia. }
  pose proof (later_position _ _ _ _ _ _ Vs V Hk) as Hm.
  destruct (s_loop_total ei er si sw (proj1 Vs) (s_fuel g ei ew si sw) ei ew [] (proj1 V)) as (acc & E4).
  { unfold s_fuel. lia. }
  rewrite E4. cbn [bind]. rewrite (entry_at_ok g si (proj1 Vs)). cbn [bind].
  pose proof (n_pos g G). rewrite (entry_at_ok g 0) by lia. cbn [bind].
  unfold seg_number. rewrite (entry_at_ok g si (proj1 Vs)). cbn [bind].
  do 2 eexists. reflexivity.
Qed.
End Total.
