(** Lemmas for SignalTheory.v. *)
From Coq Require Import Znumtheory.
From Verif Require Import Base BaseProofs ConfigModel ProxyModel ProxySpec Proxy2Theory PeriodModel PeriodProofs MpdModel MpdSpec MpdProofs
  Mpd2Proofs Mpd3Spec Mpd3Proofs SignalSpec.
Local Open Scope string_scope.
Open Scope Z_scope.

Lemma ids_p : forall c sn pto now mup ps, generate_period_data c sn pto now = Ok (mup, ps) ->
  Forall (fun p => exists s, pd_id p = "p" ++ s) ps.
Proof.
  intros c sn pto now mup ps H. unfold generate_period_data in H. cbv zeta in H.
  destruct (count_allowed (Z.min (c_pph c) 60)) eqn:CA; cbn [negb] in H; [|discriminate].
  apply bind_inv in H. destruct H as (ad & _ & H).
  destruct (Z.eqb_spec (Z.min (c_pph c) 60) (-1)) as [|N1];
    [apply bind_inv in H; destruct H as (q & _ & H); injection H as _ <-; repeat constructor; exists "0"; reflexivity|].
  destruct (Z.eqb_spec (Z.min (c_pph c) 60) 0) as [|N2];
    [apply bind_inv in H; destruct H as (q & _ & H); injection H as _ <-; repeat constructor; exists "0"; reflexivity|].
  destruct (c_tsbd c) as [b|]; [|discriminate].
  apply bind_inv in H. destruct H as (r & L & H). injection H as _ <-.
  set (good := fun p => exists s, pd_id p = "p" ++ s).
  assert (A : forall nrs acc r, Forall good acc ->
    period_loop c (Z.min (c_pph c) 60) (3600 / Z.min (c_pph c) 60) ad nrs acc = Ok r -> Forall good r).
  { induction nrs as [|nr nrs IH]; intros acc r0 F K; cbn [period_loop] in K; [injection K as <-; exact F|].
    apply bind_inv in K. destruct K as (p & P & K). refine (IH _ _ _ K). constructor.
    - unfold one_period in P. apply bind_inv in P. destruct P as (a1 & _ & P). apply bind_inv in P. destruct P as (a2 & _ & P).
      apply bind_inv in P. destruct P as (a3 & _ & P). injection P as <-. eexists. reflexivity.
    - destruct acc as [|q acc]; [constructor|]. destruct (_ && _); [|exact F]. inversion F; subst. constructor; assumption. }
  apply A in L; [|constructor]. apply Forall_rev in L. revert L. generalize (rev r) as l. clear.
  induction l as [|p l IH]; intros F; [constructor|]. inversion F as [|? ? G1 G2]; subst. specialize (IH G2).
  destruct l as [|q l]; [exact F|]. change (fill_durations _ (p :: q :: l)) with
    ((match pd_period_duration_s p with None => set_duration_s (3600 / Z.min (c_pph c) 60) p | Some _ => p end) :: fill_durations (3600 / Z.min (c_pph c) 60) (q :: l)).
  constructor; [|exact IH]. destruct (pd_period_duration_s p); exact G1.
Qed.

Lemma signals_set : forall e p id now before g x g' x',
  (pe_emsg e = true <-> last_before_loss (pe_cfg e) now) ->
  (before = None /\ id = "-1" \/ before = Some id /\ exists s, id = "p" ++ s) ->
  update_adaptation_set e p id g x = Ok (g', x') -> signalled (pe_cfg e) now before x x'.
Proof.
  intros e p id now before g x g' x' EM BE H. unfold update_adaptation_set in H.
  set (sc := match get "contentType" x with Some s => (s =? "video")%string && (0 <? c_scte35 (pe_cfg e)) | None => false end) in *.
  set (ct := (c_cont_mp (pe_cfg e) && negb (id =? "-1")%string)%bool) in *.
  match type of H with bind (update_tagged _ _ g ?k) _ = _ => set (kids := k) in * end.
  apply bind_inv in H. destruct H as ((h, k) & K & H). injection H as _ <-.
  assert (SC : sc = true <-> says_video x /\ 0 < c_scte35 (pe_cfg e)).
  { unfold sc, says_video. destruct (get "contentType" x) as [s|]; [|split; [discriminate|intros (A & _); discriminate]].
    rewrite andb_true_iff, String.eqb_eq, Z.ltb_lt. split; intros (A & B); split; congruence. }
  assert (CT : (forall i, before = Some i -> c_cont_mp (pe_cfg e) = true -> ct = true /\ i = id /\ id <> "") /\
               (before = None \/ c_cont_mp (pe_cfg e) = false -> ct = false)).
  { unfold ct. destruct BE as [(-> & ->)|(-> & s & ->)]; split.
    - discriminate.
    - intros _. apply andb_false_r.
    - intros i I ->. injection I as <-. split; [reflexivity|]. split; [reflexivity|discriminate].
    - intros [I|I]; [discriminate|]. rewrite I. reflexivity. }
  assert (KO : forall t, t <> "SegmentTemplate" -> tagged t k = tagged t kids).
  { intros t N. eapply update_tagged_other; [|..|exact K]; [intros * ?; eapply template_tag; eassumption|exact N]. }
  clearbody sc ct. split.
  - apply attrs_set_kids.
  - unfold children. rewrite kids_set_kids. change (filter (fun y => (x_tag y =? "InbandEventStream")%string) k) with (tagged "InbandEventStream" k).
    rewrite KO by discriminate.
    exists (if sc then [descriptor "InbandEventStream" "urn:scte:scte35:2013:xml" "999" None] else []),
           (if pe_emsg e then [descriptor "InbandEventStream" "urn:mpeg:dash:event:2012" "1" None] else []).
    split.
    { unfold kids. destruct (pe_emsg e), sc, ct, (md_lowlat (pe_data e)); cbn [insert_at firstn skipn app]; rewrite ?tagged_cons; reflexivity. }
    split; [intros A; apply SC in A; rewrite A; reflexivity|].
    split; [intros A; destruct sc; [exfalso; apply A, SC; reflexivity|reflexivity]|].
    split; [intros A; apply EM in A; rewrite A; reflexivity|].
    intros A. destruct (pe_emsg e); [exfalso; apply A, EM; reflexivity|reflexivity].
  - unfold children. rewrite kids_set_kids. change (filter (fun y => (x_tag y =? "SupplementalProperty")%string) k) with (tagged "SupplementalProperty" k).
    rewrite KO by discriminate. destruct CT as (C1 & C2).
    exists (if ct then [descriptor "SupplementalProperty" "urn:mpeg:dash:period_continuity:2014" id None] else []).
    split.
    { unfold kids. destruct (pe_emsg e), sc, ct, (md_lowlat (pe_data e)); cbn [insert_at firstn skipn app]; rewrite ?tagged_cons; reflexivity. }
    split.
    + intros i I J. destruct (C1 i I J) as (-> & -> & NE). cbn [map]. unfold described, descriptor, get. cbn [x_attrs].
      apply String.eqb_neq in NE. rewrite NE. reflexivity.
    + intros A. rewrite (C2 A). reflexivity.
  - intros t N. unfold children. rewrite kids_set_kids. change (filter (fun y => (x_tag y =? t)%string) k) with (tagged t k).
    rewrite KO by (intros ->; apply N; cbn; tauto).
    assert (N1 : String.eqb "InbandEventStream" t = false) by (apply String.eqb_neq; intros <-; apply N; cbn; tauto).
    assert (N2 : String.eqb "SupplementalProperty" t = false) by (apply String.eqb_neq; intros <-; apply N; cbn; tauto).
    assert (N3 : String.eqb "ProducerReferenceTime" t = false) by (apply String.eqb_neq; intros <-; apply N; cbn; tauto).
    unfold kids. clear -N1 N2 N3.
    destruct (pe_emsg e), sc, ct, (md_lowlat (pe_data e)); cbn [insert_at firstn skipn app]; rewrite ?tagged_cons;
      cbn [x_tag descriptor producer_reference]; rewrite ?N1, ?N2, ?N3; reflexivity.
Qed.

Lemma signals_period : forall e p id now before g x g' x',
  (pe_emsg e = true <-> last_before_loss (pe_cfg e) now) ->
  (before = None /\ id = "-1" \/ before = Some id /\ exists s, id = "p" ++ s) ->
  update_period e p id g x = Ok (g', x') ->
  get "id" x' = Some (pd_id p) /\ Forall2 (signalled (pe_cfg e) now before) (children "AdaptationSet" x) (children "AdaptationSet" x').
Proof.
  intros e p id now before g x g' x' EM BE H. unfold update_period in H.
  set (x1 := set "start" (pd_start p) (set "id" (pd_id p) x)) in *.
  set (x2 := match pd_etp p with Some t => set "duration" ("PT" ++ print_Z t ++ "S") x1 | None => x1 end) in *.
  set (x3 := set_opt "duration" (pd_period_duration p) x2) in *.
  set (lvl := (pto_truthy (pd_pto p) && at_period_level (pe_cfg e))%bool) in *.
  set (sb := Elem "SegmentBase" _ "" []) in *.
  apply bind_inv in H. destruct H as (z & Z & H). apply bind_inv in H. destruct H as ((h, k) & K & H). injection H as _ <-.
  assert (G : forall q, get q (set_kids k z) = get q x3).
  { intros q. rewrite get_set_kids. destruct (pd_callback p); [apply bind_inv in Z; destruct Z as (u & _ & Z)|]; injection Z as <-;
      destruct lvl; rewrite ?get_set_kids; reflexivity. }
  assert (K3 : x_kids x3 = x_kids x).
  { unfold x3, x2, x1. rewrite kids_set_opt. destruct (pd_etp p); rewrite !kids_set; reflexivity. }
  assert (EE : tagged "AdaptationSet" (x_kids z) = tagged "AdaptationSet" (x_kids x)).
  { destruct (pd_callback p); [apply bind_inv in Z; destruct Z as (u & _ & Z)|]; injection Z as <-;
      destruct lvl; rewrite ?kids_set_kids, ?K3; cbn [insert_at firstn skipn app]; rewrite ?tagged_cons; reflexivity. }
  split.
  - rewrite G. unfold x3. rewrite get_set_opt_other by discriminate. unfold x2.
    assert (E : get "id" x1 = Some (pd_id p)) by (unfold x1; rewrite get_set_other by discriminate; apply get_set_same).
    destruct (pd_etp p); [rewrite get_set_other by discriminate|]; exact E.
  - unfold children. rewrite kids_set_kids. change (filter (fun y => (x_tag y =? "AdaptationSet")%string)) with (tagged "AdaptationSet").
    rewrite <- EE. clear -K EM BE. revert g h k K. generalize (x_kids z) as l.
    induction l as [|y l IH]; intros g h k K; cbn [update_tagged] in K; [injection K as <- <-; constructor|].
    destruct (is_tag "AdaptationSet" y) eqn:E.
    + apply bind_inv in K. destruct K as ((s1, x1) & H1 & K). apply bind_inv in K. destruct K as ((s2, r2) & H2 & K). injection K as <- <-.
      rewrite !tagged_cons, (adaptation_tag _ _ _ _ _ _ _ H1). unfold is_tag in E. rewrite E.
      constructor; [eapply signals_set; eassumption|eapply IH; exact H2].
    + apply bind_inv in K. destruct K as ((s2, r2) & H2 & K). injection K as <- <-.
      rewrite !tagged_cons. unfold is_tag in E. rewrite E. eapply IH; exact H2.
Qed.

Lemma signals_chain : forall e now period ps Ps id before,
  (pe_emsg e = true <-> last_before_loss (pe_cfg e) now) ->
  Forall (fun p => exists s, pd_id p = "p" ++ s) ps ->
  (before = None /\ id = "-1" \/ before = Some id /\ exists s, id = "p" ++ s) ->
  chained (fun id p P => exists g g', update_period e p id g period = Ok (g', P)) id ps Ps ->
  forall i P, nth_error Ps i = Some P ->
    Forall2 (signalled (pe_cfg e) now
      (match i with O => before | S j => match nth_error Ps j with Some Q => get "id" Q | None => None end end))
      (children "AdaptationSet" period) (children "AdaptationSet" P).
Proof.
  intros e now period ps. induction ps as [|p ps IH]; intros [|P0 Ps] id before EM FP BE C i P N; cbn [chained] in C; try contradiction.
  - destruct i; discriminate.
  - destruct C as ((g & g' & U) & C). inversion FP as [|? ? F1 F2]; subst.
    destruct (signals_period _ _ _ _ _ _ _ _ _ EM BE U) as (I & S).
    destruct i as [|i]; cbn [nth_error] in N; [injection N as <-; exact S|].
    specialize (IH Ps (pd_id p) (Some (pd_id p)) EM F2 ltac:(right; split; [reflexivity|exact F1]) C i P N).
    destruct i as [|i]; cbn [nth_error] in *; [rewrite I; exact IH|exact IH].
Qed.

(** The flag with which the manifest is generated. *)
Lemma loss_flag : forall c e src now x, sane c -> c_emsg_last c = false -> get_mpd c e src now = Ok x ->
  exists em t, generate_dynamic_mpd c e src em t = Ok x /\ (em = true <-> last_before_loss c now).
Proof.
  intros c e src now x Sn EL H.
  assert (P : c_stl_loss c = false \/ c_multi_url c = [] -> exists em t, generate_dynamic_mpd c e src em t = Ok x /\ (em = true <-> last_before_loss c now)).
  { intros D. exists false, now. rewrite <- EL at 1. split; [apply get_mpd_plain; assumption|]. split; [discriminate|].
    intros (L & u & r & X & Y & U & _). destruct D as [D|D]; congruence. }
  destruct (c_multi_url c) as [|u r] eqn:U; [apply P; auto|]. destruct (c_stl_loss c) eqn:L; [|apply P; auto]. clear P.
  destruct (parse_updown u) as [((a, X), (b, Y))|] eqn:PU.
  2:{ exfalso. unfold get_mpd in H. apply bind_inv in H. destruct H as (_ & _ & H). apply bind_inv in H. destruct H as (y & _ & H).
      rewrite U, L, PU in H. discriminate. }
  destruct (Ascii.eqb a "u" && Ascii.eqb b "d") eqn:E.
  - apply andb_prop in E. destruct E as (Ea & Eb). apply Ascii.eqb_eq in Ea, Eb. subst a b.
    destruct (Sn u r X Y U PU) as (HX & HY).
    destruct (Z.eqb_spec (X + Y) 0) as [T|T].
    { exfalso. unfold get_mpd in H. apply bind_inv in H. destruct H as (_ & _ & H). apply bind_inv in H. destruct H as (y & _ & H).
      rewrite U, L, PU in H. cbn [bind] in H. rewrite T in H. discriminate. }
    assert (S : sched c X Y) by (repeat split; [exact L|exists u, r; auto|lia|lia|lia]).
    assert (LB : last_before_loss c now <-> ~ ud_is_down X Y (now mod 60) /\ X <= now mod 60 /\ (X + Y | now mod 60 - X)).
    { assert (M := Z.mod_pos_bound now 60 ltac:(lia)). unfold ud_is_down. split.
      - intros (_ & u' & r' & X' & Y' & U' & PU' & Z0 & k & K & KE). rewrite U in U'. injection U' as <- <-. rewrite PU in PU'. injection PU' as <- <-.
        split; [|split; [nia|exists k; lia]]. intros (D1 & D2). destruct Z0 as [Z0|Z0]; [|lia].
        rewrite KE in D2. replace (X + k * (X + Y) - 1) with (X - 1 + k * (X + Y)) in D2 by lia.
        rewrite Z.mod_add, Z.mod_small in D2 by lia. lia.
      - intros (ND & LE & (k & K)). split; [exact L|]. exists u, r, X, Y. split; [exact U|]. split; [exact PU|]. split.
        + destruct (Z.eq_dec X 0) as [->|]; [|lia]. right. destruct (Z.eq_dec (now mod 60) 0); [assumption|]. exfalso. apply ND. split; [lia|].
          apply Z.mod_pos_bound. lia.
        + exists k. split; [nia|lia]. }
    destruct (get_mpd_sched _ _ _ _ _ _ _ S H) as (D1 & D2 & D3). cbv zeta in D1, D2, D3. rewrite EL in D1, D3.
    assert (DD : ud_is_down X Y (now mod 60) \/ ~ ud_is_down X Y (now mod 60)) by (unfold ud_is_down; lia).
    destruct DD as [D|D].
    { exists false. eexists. split; [apply D1; exact D|]. rewrite LB. split; [discriminate|tauto]. }
    destruct (Z_le_dec X (now mod 60)) as [G|G].
    + destruct (Zdivide_dec (X + Y) (now mod 60 - X)) as [V|V].
      * exists true, now. split; [apply D2; assumption|]. rewrite LB. tauto.
      * exists false, now. split; [apply D3; tauto|]. rewrite LB. split; [discriminate|tauto].
    + exists false, now. split; [apply D3; tauto|]. rewrite LB. split; [discriminate|tauto].
  - exists false, now. split.
    + unfold get_mpd in H. apply bind_inv in H. destruct H as (_ & _ & H). apply bind_inv in H. destruct H as (y & G & H).
      rewrite U, L, PU in H. cbn [bind] in H. destruct (X + Y =? 0); [discriminate|]. rewrite E in H. congruence.
    + split; [discriminate|]. intros (_ & u' & r' & X' & Y' & U' & PU' & _). rewrite U in U'. injection U' as <- <-. rewrite PU in PU'.
      injection PU' as -> _ -> _. discriminate.
Qed.
