(** Lemmas for C83: track runs. *)
From Verif Require Import Base BaseProofs BytesModel BytesProofs BoxSpec Mp4Proofs ChunkModel ChunkParse ReadersModel RunModel RunSpec.
From Verif Require Import ChunkSpec.
From Coq Require Import Lia ZArith List.
Import ListNotations.
Open Scope Z_scope.

Definition w4 (b : bool) : Z := if b then 4 else 0.
Lemma opt32_len : forall o, blen (opt32 o) = w4 (has o).
Proof. intros [z|]; reflexivity. Qed.
Lemma opts32_len : forall o, blen (opt_s32 o) = w4 (has o).
Proof. intros [z|]; reflexivity. Qed.
Definition width (f : Z) : Z := w4 (Z.testbit f 8) + w4 (Z.testbit f 9) + w4 (Z.testbit f 10) + w4 (Z.testbit f 11).
Lemma entry_len : forall v f e, entry_ok v f e -> blen (entry_payload e) = width f.
Proof.
  intros v f e (_ & _ & _ & _ & C8 & C9 & C10 & C11). unfold entry_payload, width. rewrite !blen_app, !opt32_len, opts32_len, C8, C9, C10, C11. lia.
Qed.
Definition dur_of (e : ChunkSpec.entry) : Z := match en_dur e with Some d => d | None => 0 end.
Definition cto_of (e : ChunkSpec.entry) : Z := match en_cto e with Some d => d | None => 0 end.
Lemma durations_ok : forall v f l a b p, p = blen a -> Z.testbit f 8 = true -> Forall (entry_ok v f) l ->
  column u32_at (List.length l) (width f) (a ++ List.concat (map entry_payload l) ++ b) p = Ok (map dur_of l).
Proof.
  intros v f l. induction l as [|e l IH]; intros a b p P B O; [reflexivity|].
  inversion O as [|? ? O1 O2]; subst. cbn [List.length column map List.concat]. rewrite <- app_assoc.
  pose proof (entry_len _ _ _ O1) as L. destruct O1 as (U1 & _ & _ & _ & C8 & _). rewrite B in C8.
  destruct (en_dur e) as [d|] eqn:D; [|discriminate].
  assert (R : u32_at (a ++ entry_payload e ++ List.concat (map entry_payload l) ++ b) (blen a) = Ok d).
  { unfold entry_payload. rewrite D. cbn [opt32]. rewrite <- !app_assoc. apply u32_at_ok; [reflexivity|exact U1]. }
  rewrite R. cbn [bind]. rewrite (app_assoc a), IH; [|rewrite blen_app; lia|assumption|assumption].
  cbn [bind]. unfold dur_of at 2. rewrite D. reflexivity.
Qed.
Lemma ctos_ok : forall v f l a b p, p = blen a + w4 (Z.testbit f 8) + w4 (Z.testbit f 9) + w4 (Z.testbit f 10) -> Z.testbit f 11 = true ->
  Forall (entry_ok v f) l -> Forall cto_ok l ->
  column s32_at (List.length l) (width f) (a ++ List.concat (map entry_payload l) ++ b) p = Ok (map cto_of l).
Proof.
  intros v f l. induction l as [|e l IH]; intros a b p P B O C; [reflexivity|].
  inversion O as [|? ? O1 O2]; inversion C as [|? ? D1 D2]; subst. cbn [List.length column map List.concat]. rewrite <- app_assoc.
  pose proof (entry_len _ _ _ O1) as L. destruct O1 as (U1 & U2 & U3 & _ & C8 & C9 & C10 & C11). rewrite B in C11.
  unfold cto_ok in D1. destruct (en_cto e) as [d|] eqn:D; [|discriminate].
  assert (R : s32_at (a ++ entry_payload e ++ List.concat (map entry_payload l) ++ b) (blen a + w4 (Z.testbit f 8) + w4 (Z.testbit f 9) + w4 (Z.testbit f 10)) = Ok d).
  { unfold entry_payload. rewrite D. cbn [opt_s32]. rewrite <- !app_assoc. rewrite (app_assoc a), (app_assoc (a ++ _)), (app_assoc ((a ++ _) ++ _)).
    apply s32_at_ok; [|exact D1]. rewrite !blen_app, !opt32_len, C8, C9, C10. lia. }
  rewrite R. cbn [bind]. rewrite (app_assoc a), IH; [|rewrite blen_app; lia|assumption|assumption|assumption].
  cbn [bind]. unfold cto_of at 2. rewrite D. reflexivity.
Qed.

(** The range *)
Lemma sum_from : forall l a, fold_left Z.add l a = a + fold_left Z.add l 0.
Proof. induction l as [|x l IH]; intros a; cbn [fold_left]; [lia|]. rewrite IH, (IH (0 + x)). lia. Qed.
Lemma sum_lasting : forall l, sum (map fst l) = lasting l.
Proof.
  induction l as [|[d c] l IH]; [reflexivity|]. unfold sum in *. cbn [map fst fold_left lasting]. rewrite sum_from, IH. lia.
Qed.
Lemma lasting_app : forall a b, lasting (a ++ b) = lasting a + lasting b.
Proof. induction a as [|[d c] a IH]; intros b; cbn [app lasting]; [lia|]. rewrite IH. lia. Qed.
Lemma span_ok : forall rest before lo hi,
  earliest (begins before) lo -> latest (finishes before) hi ->
  exists lo' hi', span rest (lasting before) lo hi = (lo', hi') /\
    earliest (begins (before ++ rest)) lo' /\ latest (finishes (before ++ rest)) hi'.
Proof.
  induction rest as [|[d c] rest IH]; intros before lo hi L H.
  - exists lo, hi. rewrite app_nil_r. auto.
  - cbn [span]. specialize (IH (before ++ [(d, c)])). rewrite lasting_app in IH. cbn [lasting] in IH. rewrite Z.add_0_r in IH.
    rewrite <- app_assoc in IH. apply IH; clear IH.
    + destruct L as [(x1 & d1 & c1 & y1 & E1 & F1) L2]. split.
      * destruct (Z.ltb_spec (lasting before + c) lo).
        -- exists before, d, c, []. auto.
        -- exists x1, d1, c1, (y1 ++ [(d, c)]). rewrite E1, <- app_assoc. auto.
      * intros y (p & d2 & c2 & q & E & F). destruct q as [|z q] using rev_ind.
        -- apply app_inj_tail in E. destruct E as [EP E]. inversion E; subst d2 c2 y. rewrite EP. destruct (Z.ltb_spec (lasting p + c) lo); lia.
        -- rewrite app_comm_cons, app_assoc in E. apply app_inj_tail in E. destruct E as [E _].
           assert (lo <= y) by (apply L2; exists p, d2, c2, q; auto). destruct (Z.ltb_spec (lasting before + c) lo); lia.
    + destruct H as [(x1 & d1 & c1 & y1 & E1 & F1) L2]. split.
      * rewrite Z.gtb_ltb. destruct (Z.ltb_spec hi (lasting before + c + d)).
        -- exists before, d, c, []. auto.
        -- exists x1, d1, c1, (y1 ++ [(d, c)]). rewrite E1, <- app_assoc. auto.
      * intros y (p & d2 & c2 & q & E & F). rewrite Z.gtb_ltb. destruct q as [|z q] using rev_ind.
        -- apply app_inj_tail in E. destruct E as [EP E]. inversion E; subst d2 c2 y. rewrite EP. destruct (Z.ltb_spec hi (lasting p + c + d)); lia.
        -- rewrite app_comm_cons, app_assoc in E. apply app_inj_tail in E. destruct E as [E _].
           assert (y <= hi) by (apply L2; exists p, d2, c2, q; auto). destruct (Z.ltb_spec hi (lasting before + c + d)); lia.
Qed.
Lemma combine_fst_snd : forall (l : list (Z * Z)), combine (map fst l) (map snd l) = l.
Proof. induction l as [|[a b] l IH]; [reflexivity|]. cbn [map fst snd combine]. rewrite IH. reflexivity. Qed.
Lemma shown_ok : forall l, l <> [] -> exists lo hi, shown (map fst l) (map snd l) = Ok (lo, hi) /\ earliest (begins l) lo /\ latest (finishes l) hi.
Proof.
  intros [|[d c] l] H; [congruence|]. unfold shown. cbn [map fst snd].
  change (d :: map fst l) with (map fst ((d, c) :: l)). change (c :: map snd l) with (map snd ((d, c) :: l)). rewrite combine_fst_snd.
  cbn [span]. rewrite ?Z.add_0_l, Z.ltb_irrefl, Z.gtb_ltb, Z.ltb_irrefl.
  destruct (span_ok l [(d, c)] c (c + d)) as (lo & hi & E & A & B).
  - split; [exists [], d, c, []; split; [reflexivity|cbn; lia]|]. intros y (p & d2 & c2 & q & E & F).
    destruct p as [|z [|? ?]]; inversion E; subst; cbn; lia.
  - split; [exists [], d, c, []; split; [reflexivity|cbn; lia]|]. intros y (p & d2 & c2 & q & E & F).
    destruct p as [|z [|? ?]]; inversion E; subst; cbn; lia.
  - exists lo, hi. cbn [lasting] in E. rewrite Z.add_0_r in E. rewrite E. auto.
Qed.
(** Without offsets *)
Lemma plain_ok : forall l, l <> [] -> Forall (fun p => 0 <= fst p /\ snd p = 0) l ->
  earliest (begins l) 0 /\ latest (finishes l) (lasting l).
Proof.
  intros l N P. assert (G : forall x, Forall (fun p => 0 <= fst p /\ snd p = 0) x -> 0 <= lasting x).
  { induction x as [|[d c] x IH]; intros F; [cbn; lia|]. inversion F as [|? ? F1 F2]; subst. cbn [fst snd] in F1. cbn [lasting]. specialize (IH F2). lia. }
  split; split.
  - destruct l as [|[d c] l]; [congruence|]. inversion P as [|? ? F1 F2]; subst. cbn [fst snd] in F1. exists [], d, c, l. split; [reflexivity|cbn; lia].
  - intros y (p & d & c & q & -> & ->). apply Forall_app in P. destruct P as [P1 P2]. inversion P2 as [|? ? F1 F2]; subst. cbn [fst snd] in F1.
    specialize (G _ P1). lia.
  - destruct l as [|z l _] using rev_ind; [congruence|]. destruct z as [d c]. apply Forall_app in P. destruct P as [P1 P2]. inversion P2 as [|? ? F1 F2]; subst.
    cbn [fst snd] in F1. exists l, d, c, []. split; [reflexivity|]. rewrite lasting_app. cbn [lasting]. lia.
  - intros y (p & d & c & q & -> & ->). apply Forall_app in P. destruct P as [P1 P2]. inversion P2 as [|? ? F1 F2]; subst. cbn [fst snd] in F1.
    rewrite lasting_app. cbn [lasting]. specialize (G _ F2). lia.
Qed.
Lemma lasting_const : forall (l : list (Z * Z)) d, Forall (fun p => fst p = d) l -> lasting l = d * Z.of_nat (List.length l).
Proof.
  intros l d. induction l as [|[x c] l IH]; intros F; [cbn; lia|]. inversion F as [|? ? F1 F2]; subst. cbn [fst] in *. cbn [lasting List.length]. rewrite IH by exact F2. lia.
Qed.

Theorem durations_of_run : forall r data o default d,
  run_ok r -> Forall small_offset (rn_entries r) -> lies data o (run_box r) ->
  (Z.testbit (rn_flags r) 8 = true \/ default = Some d) -> 0 <= d ->
  exists lo hi, get_durations data o default = Ok (lasting (samples_of d r), lo, hi) /\
    earliest (begins (samples_of d r)) lo /\ latest (finishes (samples_of d r)) hi.
Proof.
  intros r data o default d OK SM (pre & post & -> & ->) DF D0.
  assert (CT : Forall cto_ok (rn_entries r)).
  { pose proof OK as (_ & _ & _ & _ & _ & _ & _ & E). rewrite Forall_forall in *. intros e He. specialize (SM e He). specialize (E e He).
    destruct E as (_ & _ & _ & C & _). unfold cto_ok. unfold small_offset in SM. destruct (en_cto e); [|exact I]. cbn [within u32] in *.
    destruct (rn_version r =? 0); cbn [u32 within] in C; unfold u32 in C; cbn [within] in C; lia. }
  unfold run_box. rewrite <- !app_assoc. unfold get_durations.
  replace (pre ++ be32 (8 + blen (run_payload r)) ++ bstr "trun" ++ run_payload r ++ post)
    with ((pre ++ be32 (8 + blen (run_payload r)) ++ bstr "trun") ++ run_payload r ++ post) by (rewrite <- !app_assoc; reflexivity).
  set (a := pre ++ _). assert (LA : blen a = blen pre + 8) by (unfold a; rewrite !blen_app, blen_be32; change (blen (bstr "trun")) with 4; lia).
  rewrite trun_at_ok by (try assumption; lia). cbn [bind t_flags t_count t_table].
  pose proof OK as (V & F & B0 & B2 & C0 & C2 & N & E). rewrite Nat2Z.id.
  set (F8 := Z.testbit (rn_flags r) 8) in *. 
  repeat match goal with |- context [if Z.testbit (rn_flags r) ?k then 4 else 0] => change (if Z.testbit (rn_flags r) k then 4 else 0) with (w4 (Z.testbit (rn_flags r) k)) end.
  change (if F8 then 4 else 0) with (w4 F8). unfold F8 in *. clear F8.
  change (w4 (Z.testbit (rn_flags r) 8) + w4 (Z.testbit (rn_flags r) 9) + w4 (Z.testbit (rn_flags r) 10) + w4 (Z.testbit (rn_flags r) 11)) with (width (rn_flags r)).
  unfold run_payload. set (w0 := be32 (rn_version r * 16777216 + rn_flags r)). set (w1 := be32 (Z.of_nat (List.length (rn_entries r)))).
  replace (a ++ (w0 ++ w1 ++ opt_s32 (rn_offset r) ++ opt32 (rn_first r) ++ List.concat (map entry_payload (rn_entries r))) ++ post)
    with ((a ++ w0 ++ w1 ++ opt_s32 (rn_offset r) ++ opt32 (rn_first r)) ++ List.concat (map entry_payload (rn_entries r)) ++ post) by (rewrite <- !app_assoc; reflexivity).
  set (h := a ++ _). assert (LH : table_at r (blen pre) = blen h).
  { unfold table_at, h. rewrite !blen_app, LA. unfold w0, w1. rewrite !blen_be32. lia. }
  rewrite LH.
  assert (NE : samples_of d r <> []) by (unfold samples_of; destruct (rn_entries r); [cbn in N; lia|discriminate]).
  assert (S1 : Z.testbit (rn_flags r) 8 = true -> map fst (samples_of d r) = map dur_of (rn_entries r)).
  { intros B. unfold samples_of. rewrite map_map. apply map_ext_in. intros e He. rewrite Forall_forall in E. destruct (E e He) as (_ & _ & _ & _ & C8 & _).
    rewrite B in C8. unfold sample_of, dur_of. destruct (en_dur e); [reflexivity|discriminate]. }
  assert (S2 : Z.testbit (rn_flags r) 8 = false -> map fst (samples_of d r) = repeat d (List.length (rn_entries r))).
  { intros B. unfold samples_of. rewrite map_map. clear - E B. induction (rn_entries r) as [|e l IH]; [reflexivity|]. inversion E as [|? ? E1 E2]; subst.
    destruct E1 as (_ & _ & _ & _ & C8 & _). rewrite B in C8. cbn [map List.length repeat]. rewrite IH by exact E2. f_equal. unfold sample_of. destruct (en_dur e); [discriminate|reflexivity]. }
  assert (S3 : Z.testbit (rn_flags r) 11 = true -> map snd (samples_of d r) = map cto_of (rn_entries r)).
  { intros B. unfold samples_of. rewrite map_map. apply map_ext_in. intros e He. reflexivity. }
  assert (S4 : Z.testbit (rn_flags r) 11 = false -> Forall (fun p => 0 <= fst p /\ snd p = 0) (samples_of d r)).
  { intros B. unfold samples_of. rewrite Forall_map. eapply Forall_impl; [|exact E]. intros e (U & _ & _ & _ & _ & _ & _ & C11). rewrite B in C11.
    unfold sample_of. cbn [fst snd]. destruct (en_cto e); [discriminate|]. split; [|reflexivity]. unfold u32, within in U. destruct (en_dur e); lia. }
  assert (LS : List.length (samples_of d r) = List.length (rn_entries r)) by (unfold samples_of; apply map_length).
  assert (Z2 : Z.testbit (rn_flags r) 8 = false -> d * Z.of_nat (List.length (rn_entries r)) = lasting (samples_of d r)).
  { intros B. rewrite <- LS. symmetry. apply lasting_const. specialize (S2 B). clear - S2. revert S2. generalize (List.length (rn_entries r)).
    induction (samples_of d r) as [|p l IH]; intros n H; [constructor|]. destruct n; [discriminate|]. cbn [map repeat] in H. injection H as H1 H2.
    constructor; [exact H1|]. apply (IH n). exact H2. }
  destruct (Z.testbit (rn_flags r) 8) eqn:B8.
  - rewrite (durations_ok (rn_version r)) by auto. cbn [bind]. rewrite <- S1, sum_lasting by reflexivity.
    destruct (Z.testbit (rn_flags r) 11) eqn:B11.
    + rewrite (ctos_ok (rn_version r)) by (auto; rewrite ?B8; reflexivity). cbn [bind]. rewrite <- S3 by reflexivity.
      destruct (shown_ok _ NE) as (lo & hi & -> & A & B). cbn [bind]. exists lo, hi. auto.
    + exists 0, (lasting (samples_of d r)). split; [reflexivity|]. apply plain_ok; auto.
  - destruct DF as [DF| ->]; [discriminate|].
    rewrite <- S2 by reflexivity. rewrite Z2 by reflexivity. destruct (Z.testbit (rn_flags r) 11) eqn:B11.
    + rewrite (ctos_ok (rn_version r)) by (auto; rewrite ?B8; reflexivity). cbn [bind]. rewrite <- S3 by reflexivity.
      destruct (shown_ok _ NE) as (lo & hi & -> & A & B). cbn [bind]. exists lo, hi. auto.
    + exists 0, (lasting (samples_of d r)). split; [reflexivity|]. apply plain_ok; auto.
Qed.
