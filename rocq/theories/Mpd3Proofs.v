(** Lemmas about SegmentTimeline addressing in the tree of the manifest. *)
From Coq Require Import ZifyBool ZifyNat.
From Verif Require Import Base BaseProofs StrModel ConfigModel TimelineModel TimelineSpec TimelineProofs TimelineTheory
  PeriodModel PeriodProofs MpdModel MpdSpec MpdProofs Mpd2Proofs Mpd3Spec.
Open Scope Z_scope.

(** *** S elements *)
Lemma int_attr_print : forall k z x, get k x = Some (print_Z z) -> int_attr k x = Some z.
Proof. intros k z x H. unfold int_attr. rewrite H, py_int_print. reflexivity. Qed.
Lemma s_xml_read : forall s, int_attr "t" (s_xml s) = s_t s /\ int_attr "d" (s_xml s) = Some (s_d s) /\ int_attr "r" (s_xml s) = s_r s.
Proof.
  intros [t d r]. unfold int_attr, s_xml, get. cbn [s_t s_d s_r x_attrs].
  destruct t, r; cbn; rewrite ?py_int_print; auto.
Qed.
Lemma client_read : forall l now, client_s now (map s_xml l) = Some (read_s now l).
Proof.
  induction l as [|s l IH]; intros now; [reflexivity|].
  cbn [map client_s read_s]. destruct (s_xml_read s) as (T & D & R). rewrite T, D, R, IH. reflexivity.
Qed.
Lemma children_all : forall l, filter (fun y => String.eqb (x_tag y) "S") (map s_xml l) = map s_xml l.
Proof. induction l as [|s l IH]; [reflexivity|]. cbn [map filter]. rewrite IH. reflexivity. Qed.
Lemma client_listing : forall l x r, x_kids x = timeline_xml l :: r -> client_timeline x = Some (read_timeline l).
Proof.
  intros l x r H. unfold client_timeline, children. rewrite H. cbn [filter x_tag timeline_xml x_kids]. 
  change (String.eqb "SegmentTimeline" "SegmentTimeline") with true. cbv iota. cbn [x_kids timeline_xml].
  rewrite children_all, client_read. reflexivity.
Qed.

Lemma generator_table : forall c tables ct g, make_generator c tables ct = Ok g -> track_table c tables ct g.
Proof.
  intros c tables ct g H. unfold make_generator in H. destruct (List.find _ _) as [(ct', m)|] eqn:F; [|discriminate].
  assert (ct' = ct). { apply List.find_some in F. destruct F as (_ & F). apply String.eqb_eq in F. exact F. } subst ct'.
  destruct (m_dat m) as [f|] eqn:D; [|discriminate]. apply bind_inv in H. destruct H as (t & T & H). injection H as <-.
  exists m, f, t. auto.
Qed.

(** *** One SegmentTemplate *)
Lemma template_timed_ok : forall e p ct h x g' x' tables,
  tracks_from (pe_cfg e) tables (Some h) -> update_template e p ct (Some h) x = Ok (g', x') ->
  exists q gen nr0 st en uc l nr, (q = "video" \/ q = "audio")%string /\ ct = Some q /\ track_table (pe_cfg e) tables q gen /\
    segtimeline_window (pe_cfg e) (pe_now e) (pd_start_s p) (pd_period_duration_s p) = Ok (st, en, uc) /\
    create_segtimeline gen st en uc nr0 = Ok (Timeline l nr) /\
    template_timed (pe_cfg e) p gen x x' /\ client_timeline x' = Some (read_timeline l) /\
    (c_segtl (pe_cfg e) = false -> get "startNumber" x' = Some (number_str nr)).
Proof.
  intros e p ct h x g' x' tables TF H.
  unfold update_template in H.
  set (x1 := set "startNumber" (pd_start_number p) x) in *.
  set (x2 := if (pto_truthy (pd_pto p) && negb (at_period_level (pe_cfg e)))%bool then set_pto (pd_pto p) x1 else x1) in *.
  set (x3 := if md_lowlat (pe_data e) then _ else x2) in *.
  set (x4 := if String.eqb (pd_start_number p) "-1" then del "startNumber" x3 else x3) in *.
  apply bind_inv in H. destruct H as ((gen, nr0) & PG & H).
  apply bind_inv in H. destruct H as (((st, en), uc) & W & H).
  apply bind_inv in H. destruct H as (tl & TL & H). cbn [fst snd] in TL.
  apply bind_inv in H. destruct H as (z & Z & H).
  destruct (get "media" z) as [media|] eqn:M; [|discriminate]. destruct tl as [|l nr]; [discriminate|].
  injection H as _ <-.
  (* the table *)
  assert (TT : exists q, (q = "video" \/ q = "audio")%string /\ ct = Some q /\ track_table (pe_cfg e) tables q gen).
  { destruct TF as [(_ & TF)|(h' & _ & E & V & A)]; [discriminate|]. injection E as <-. unfold pick_generator in PG. destruct ct as [q|]; [|discriminate].
    destruct (String.eqb_spec q "video") as [->|_].
    - injection PG as <- _. exists "video"%string. split; [auto|]. split; [reflexivity|]. apply generator_table. exact V.
    - destruct (String.eqb_spec q "audio") as [->|_]; [|discriminate].
      injection PG as <- _. exists "audio"%string. split; [auto|]. split; [reflexivity|]. apply generator_table. exact A. }
  destruct TT as (q & Q & -> & TT).
  (* attributes *)
  assert (K4 : forall k, ~ In k ["startNumber"; "presentationTimeOffset"; "availabilityTimeOffset"; "availabilityTimeComplete"]%string ->
    get k x4 = get k x).
  { intros k N. cbn [In] in N. transitivity (get k x3).
    { unfold x4. destruct (String.eqb _ _); [apply get_del_other|reflexivity]. intros ->. tauto. }
    transitivity (get k x2).
    { unfold x3. destruct (md_lowlat _); [|reflexivity]. rewrite !get_set_other by (intros ->; tauto). reflexivity. }
    transitivity (get k x1).
    { unfold x2. destruct (_ && _)%bool; [apply get_set_pto_other; intros ->; tauto|reflexivity]. }
    apply get_set_other. intros ->. tauto. }
  assert (P4 : get "presentationTimeOffset" x4 = get "presentationTimeOffset" x2).
  { transitivity (get "presentationTimeOffset" x3).
    { unfold x4. destruct (String.eqb _ _); [apply get_del_other; discriminate|reflexivity]. }
    unfold x3. destruct (md_lowlat _); [|reflexivity]. rewrite !get_set_other by discriminate. reflexivity. }
  assert (D4 : x_kids x4 = x_kids x).
  { unfold x4. destruct (String.eqb _ _); rewrite ?kids_del; unfold x3; destruct (md_lowlat _); rewrite ?kids_set; unfold x2;
      destruct (_ && _)%bool; rewrite ?kids_set_pto; apply kids_set. }
  set (y := set "timescale" (print_Z (tg_timescale gen)) (del "duration" x4)) in *.
  assert (KZ : forall k, k <> "presentationTimeOffset"%string -> get k z = get k y).
  { intros k N. match type of Z with (if ?b then _ else _) = _ => destruct b end; [apply bind_inv in Z; destruct Z as (i & _ & Z)|]; injection Z as <-; [apply get_set_other; exact N|reflexivity]. }
  assert (DZ : x_kids z = x_kids x).
  { match type of Z with (if ?b then _ else _) = _ => destruct b end; [apply bind_inv in Z; destruct Z as (i & _ & Z)|]; injection Z as <-; rewrite ?kids_set; unfold y; rewrite kids_set, kids_del; exact D4. }
  assert (KY : forall k, k <> "timescale"%string -> k <> "duration"%string -> get k y = get k x4).
  { intros k N1 N2. unfold y. rewrite get_set_other, get_del_other by congruence. reflexivity. }
  set (s1 := if c_segtl (pe_cfg e) then del "startNumber" z else set "startNumber" (number_str nr) z) in *.
  assert (KS : forall k, k <> "startNumber"%string -> get k s1 = get k z).
  { intros k N. unfold s1. destruct (c_segtl _); [apply get_del_other|apply get_set_other]; exact N. }
  match goal with |- context [set_kids _ (set "media" ?m s1)] => set (md := m) in * end.
  set (f := set "media" md s1) in *.
  assert (KF : forall k, k <> "media"%string -> get k f = get k s1) by (intros k N; apply get_set_other; exact N).
  assert (DF : x_kids f = x_kids x).
  { unfold f. rewrite kids_set. unfold s1. destruct (c_segtl _); rewrite ?kids_del, ?kids_set; exact DZ. }
  exists q, gen, nr0, st, en, uc, l, nr. split; [exact Q|]. split; [reflexivity|]. split; [exact TT|]. split; [exact W|]. split; [exact TL|].
  split; [split|split].
  - apply int_attr_print. rewrite get_set_kids, KF, KS, KZ by discriminate. unfold y. apply get_set_same.
  - rewrite get_set_kids, KF, KS, KZ by discriminate. unfold y. rewrite get_set_other by discriminate. apply get_del_same.
  - rewrite get_set_kids, KF by discriminate. unfold s1. destruct (c_segtl _); [rewrite get_del_same|rewrite get_set_same]; split; congruence.
  - exists media. split.
    + rewrite <- M, KZ, KY by discriminate. symmetry. apply K4. cbn. intuition discriminate.
    + rewrite get_set_kids. unfold f. rewrite get_set_same. reflexivity.
  - intros L. rewrite get_set_kids, KF, KS by discriminate.
    assert (AL : at_period_level (pe_cfg e) = true) by (unfold at_period_level; lia). rewrite AL in Z. cbn [negb] in Z. rewrite andb_false_r in Z.
    injection Z as <-. rewrite KY, P4 by discriminate. unfold x2. rewrite AL. cbn [negb]. rewrite andb_false_r. apply get_set_other. discriminate.
  - intros n L PS. rewrite get_set_kids, KF, KS by discriminate.
    assert (AL : at_period_level (pe_cfg e) = false) by (unfold at_period_level; lia). rewrite AL in Z. cbn [negb] in Z. rewrite andb_true_r in Z.
    destruct (pto_not_zero_str (pd_pto p)) eqn:NZ.
    + left. apply bind_inv in Z. destruct Z as (i & I & Z). injection Z as <-. rewrite get_set_same. do 3 f_equal.
      destruct (pd_pto p) as [s|i0]; cbn [pto_int pto_str] in *.
      * rewrite PS, py_int_print in I. injection I as <-. reflexivity.
      * injection I as <-. apply print_Z_inj in PS. exact PS.
    + right. injection Z as <-. destruct (pd_pto p) as [s|i0] eqn:PT; cbn [pto_not_zero_str] in NZ; [|discriminate].
      destruct (String.eqb_spec s "0") as [->|]; [|discriminate]. cbn [pto_str] in PS. split; [symmetry in PS; apply print_Z_zero; exact PS|].
      rewrite KY, P4 by discriminate. unfold x2. rewrite AL. cbn [pto_truthy negb andb String.eqb]. cbn [set_pto pto_str].
      change (String.eqb "0" "") with false. cbn [negb andb]. unfold set_pto. cbn [pto_str]. rewrite String.eqb_refl. apply get_set_other. discriminate.
  - intros k N. cbn [In] in N. rewrite get_set_kids, KF, KS, KZ, KY by (intros ->; tauto). apply K4. cbn [In]. tauto.
  - exists (timeline_xml l). split; [reflexivity|]. rewrite kids_set_kids. f_equal. exact DF.
  - apply (client_listing l _ (x_kids f)). apply kids_set_kids.
  - intros SG. rewrite get_set_kids, KF by discriminate. unfold s1. rewrite SG. apply get_set_same.
Qed.
Lemma template_timeline : forall e p ct h x g' x' tables depth,
  tracks_from (pe_cfg e) tables (Some h) -> c_tsbd (pe_cfg e) = Some depth ->
  (c_stop_time (pe_cfg e) = None \/ c_timeoffset (pe_cfg e) <> Some 0) ->
  (forall q g, track_table (pe_cfg e) tables q g -> gen_ok g /\
     clean_window g (shown_from (pe_cfg e) depth (pe_now e) p) (shown_until (pe_cfg e) (pe_now e) p)) ->
  0 <= shown_from (pe_cfg e) depth (pe_now e) p -> 0 <= shown_until (pe_cfg e) (pe_now e) p ->
  update_template e p ct (Some h) x = Ok (g', x') ->
  template_lists (pe_cfg e) tables depth (pe_now e) p ct x x'.
Proof.
  intros e p ct h x g' x' tables depth TF TS ST TB F0 U0 H.
  destruct (template_timed_ok _ _ _ _ _ _ _ _ TF H) as (q & gen & nr0 & st & en & uc & l & nr & Q & CT & TT & W & TL & TM & CL & NB).
  destruct (TB _ _ TT) as (G & CW).
  (* the window *)
  assert (WE : st = shown_from (pe_cfg e) depth (pe_now e) p /\ en = shown_until (pe_cfg e) (pe_now e) p /\ uc = false).
  { assert (W' : Ok (Z.max (c_ast (pe_cfg e) + pd_start_s p) (pe_now e - depth) - c_ast (pe_cfg e),
      match pd_period_duration_s p with Some q => Z.min (c_ast (pe_cfg e) + pd_start_s p + q) (pe_now e) | None => pe_now e end - c_ast (pe_cfg e), false)
      = Ok (st, en, uc)).
    { unfold segtimeline_window in W. rewrite TS in W. destruct (c_stop_time (pe_cfg e)); [|exact W].
      destruct (c_timeoffset (pe_cfg e)) as [[| |]|]; try exact W. destruct ST as [ST|ST]; [discriminate|exfalso; apply ST; reflexivity]. }
    clear W. injection W' as <- <- <-. unfold shown_from, shown_until.
    destruct (pd_period_duration_s p); repeat split; lia. }
  destruct WE as (-> & -> & ->).
  assert (LIST : exists a b, first_listed gen (shown_from (pe_cfg e) depth (pe_now e) p * tg_timescale gen) a /\
    last_complete gen (shown_until (pe_cfg e) (pe_now e) p * tg_timescale gen) b /\
    read_timeline l = live_range gen a b /\ (a <= b -> nr = Some a)).
  { destruct (C26_exact_partial_pf gen _ _ nr0 G F0 U0 CW) as (a & FA & [(N & _)|(b & LB & B1 & B2)]); [congruence|].
    exists a, b. split; [exact FA|]. split; [exact LB|]. destruct (Z.ltb_spec b a) as [C|C].
    - rewrite (B1 C) in TL. injection TL as <- _. split; [|lia]. unfold live_range. replace (Z.to_nat (b - a + 1)) with O by lia. reflexivity.
    - destruct (B2 C) as (l' & L1 & L2). rewrite L1 in TL. injection TL as <- <-. auto. }
  destruct LIST as (a & b & FA & LB & RL & NR).
  exists q, gen, a, b. split; [exact Q|]. split; [exact CT|]. split; [exact TT|]. split; [exact TM|exact FA|exact LB|rewrite CL, RL; reflexivity|].
  intros SG AB. apply int_attr_print. rewrite (NB SG), (NR AB). reflexivity.
Qed.
Lemma template_any_ok : forall e p ct g x g' x' tables,
  tracks_from (pe_cfg e) tables g -> update_template e p ct g x = Ok (g', x') ->
  template_any (pe_cfg e) tables p ct x x'.
Proof.
  intros e p ct g x g' x' tables TF H. destruct TF as [(S & ->)|(h & S & -> & TF)].
  - apply orb_false_iff in S. destruct S as (S1 & S2). split; [intros _; eapply template_number; exact H|]. intros [K|K]; congruence.
  - apply orb_true_iff in S. split; [intros (K1 & K2); destruct S; congruence|]. intros _.
    destruct (template_timed_ok e p ct h x g' x' tables) as (q & gen & nr0 & st & en & uc & l & nr & Q & CT & TT & _ & _ & TM & _); [|exact H|].
    + right. exists h. split; [apply orb_true_iff; exact S|]. auto.
    + exists q, gen. auto.
Qed.

(** *** AdaptationSet and Period *)
Lemma tracks_from_same : forall c tables g g', tracks g' = tracks g -> tracks_from c tables g -> tracks_from c tables g'.
Proof.
  intros c tables g g' E [(S & ->)|(h & S & -> & V & A)]; [left|right].
  - destruct g'; [discriminate|auto].
  - destruct g' as [h'|]; [|discriminate]. injection E as E1 E2. exists h'. rewrite E1, E2. auto.
Qed.
Section Templates.
Variables (e : penv) (p : pdata) (tables : string -> result (list entry)) (R : option string -> xml -> xml -> Prop).
Hypothesis HR : forall ct g x g' x', tracks_from (pe_cfg e) tables g -> update_template e p ct g x = Ok (g', x') -> R ct x x'.
Lemma adaptation_generic : forall id g x g' x',
  tracks_from (pe_cfg e) tables g -> update_adaptation_set e p id g x = Ok (g', x') -> adaptation_with R x x'.
Proof.
  intros id g x g' x' TF H. unfold update_adaptation_set in H.
  set (sc := match get "contentType" x with Some s => (s =? "video")%string && (0 <? c_scte35 (pe_cfg e)) | None => false end) in *.
  set (ct := (c_cont_mp (pe_cfg e) && negb (id =? "-1")%string)%bool) in *.
  match type of H with bind (update_tagged _ _ g ?k) _ = _ => set (kids := k) in * end.
  apply bind_inv in H. destruct H as ((h, k) & K & H). injection H as _ <-.
  assert (O : forall t, ~ In t ["InbandEventStream"; "SupplementalProperty"; "ProducerReferenceTime"]%string -> tagged t kids = tagged t (x_kids x)).
  { intros t N. assert (N1 : String.eqb "InbandEventStream" t = false) by (apply String.eqb_neq; intros <-; apply N; cbn; tauto).
    assert (N2 : String.eqb "SupplementalProperty" t = false) by (apply String.eqb_neq; intros <-; apply N; cbn; tauto).
    assert (N3 : String.eqb "ProducerReferenceTime" t = false) by (apply String.eqb_neq; intros <-; apply N; cbn; tauto).
    unfold kids. clearbody sc ct. clear -N1 N2 N3.
    destruct (pe_emsg e), sc, ct, (md_lowlat (pe_data e)); cbn [insert_at firstn skipn app]; rewrite ?tagged_cons;
      cbn [x_tag descriptor producer_reference]; rewrite ?N1, ?N2, ?N3; reflexivity. }
  assert (S : Forall2 (R (get "contentType" x)) (tagged "SegmentTemplate" kids) (tagged "SegmentTemplate" k)).
  { clear O. clearbody kids. revert K TF. generalize (get "contentType" x) as c0. intros c0. revert g h k.
    induction kids as [|y l IH]; intros g h k K TF; cbn [update_tagged] in K; [injection K as <- <-; constructor|].
    destruct (is_tag "SegmentTemplate" y) eqn:E.
    - apply bind_inv in K. destruct K as ((s1, x1) & H1 & K).
      apply bind_inv in K. destruct K as ((s2, r2) & H2 & K). injection K as <- <-.
      rewrite !tagged_cons. rewrite (template_tag _ _ _ _ _ _ _ H1). unfold is_tag in E. rewrite E.
      constructor.
      + exact (HR _ _ _ _ _ TF H1).
      + eapply IH; [exact H2|]. eapply tracks_from_same; [|exact TF]. exact (template_state _ _ _ _ _ _ _ H1).
    - apply bind_inv in K. destruct K as ((s2, r2) & H2 & K). injection K as <- <-.
      rewrite !tagged_cons. unfold is_tag in E. rewrite E. eapply IH; [exact H2|exact TF]. }
  split.
  - apply attrs_set_kids.
  - unfold children. rewrite kids_set_kids. rewrite O in S by (cbn; intuition discriminate). exact S.
  - intros t N. unfold children. rewrite kids_set_kids.
    transitivity (tagged t kids); [|apply O; intros I; apply N; cbn in *; tauto].
    eapply update_tagged_other; [|..|exact K]; [intros * ?; eapply template_tag; eassumption|].
    intros ->. apply N. left. reflexivity.
Qed.

Lemma period_generic : forall id g x g' x', x_tag x = "Period"%string ->
  tracks_from (pe_cfg e) tables g -> update_period e p id g x = Ok (g', x') -> period_with (pe_cfg e) R p x x'.
Proof.
  intros id g x g' x' T TF H. unfold update_period in H.
  set (x1 := set "start" (pd_start p) (set "id" (pd_id p) x)) in *.
  set (x2 := match pd_etp p with Some t => set "duration" ("PT" ++ print_Z t ++ "S") x1 | None => x1 end) in *.
  set (x3 := set_opt "duration" (pd_period_duration p) x2) in *.
  set (lvl := (pto_truthy (pd_pto p) && at_period_level (pe_cfg e))%bool) in *.
  set (sb := Elem "SegmentBase" _ "" []) in *.
  apply bind_inv in H. destruct H as (z & Z & H). apply bind_inv in H. destruct H as ((h, k) & K & H). injection H as _ <-.
  assert (G : forall q, get q (set_kids k z) = get q x3).
  { intros q. rewrite get_set_kids. destruct (pd_callback p); [apply bind_inv in Z; destruct Z as (u & _ & Z)|]; injection Z as <-;
      destruct lvl; rewrite ?get_set_kids; reflexivity. }
  assert (K3 : x_kids x3 = x_kids x).
  { unfold x3, x2, x1. rewrite kids_set_opt. destruct (pd_etp p); rewrite !kids_set; reflexivity. }
  assert (E : forall t, t <> "EventStream"%string -> tagged t (x_kids z) = tagged t (if lvl then sb :: x_kids x else x_kids x)).
  { intros t N. assert (N1 : String.eqb "EventStream" t = false) by (apply String.eqb_neq; congruence).
    destruct (pd_callback p); [apply bind_inv in Z; destruct Z as (u & _ & Z)|]; injection Z as <-;
      destruct lvl; rewrite ?kids_set_kids, ?K3; cbn [insert_at firstn skipn app]; rewrite ?tagged_cons; cbn [x_tag descriptor];
      rewrite ?N1; reflexivity. }
  assert (D : forall q, q <> "duration"%string -> get q x3 = get q x1).
  { intros q N. unfold x3. rewrite get_set_opt_other by exact N. unfold x2. destruct (pd_etp p); [apply get_set_other; exact N|reflexivity]. }
  split.
  - rewrite G, D by discriminate. unfold x1. rewrite get_set_other by discriminate. apply get_set_same.
  - rewrite G, D by discriminate. apply get_set_same.
  - rewrite G. unfold x3. destruct (pd_period_duration p); cbn [set_opt]; [apply get_set_same|].
    unfold x2. destruct (pd_etp p); [apply get_set_same|]. unfold x1. rewrite !get_set_other by discriminate. reflexivity.
  - intros q N. rewrite G, D by (intros ->; apply N; cbn; tauto). unfold x1.
    rewrite !get_set_other by (intros ->; apply N; cbn; tauto). reflexivity.
  - intros L NO. unfold children. rewrite kids_set_kids.
    assert (TR : pto_truthy (pd_pto p) = true).
    { destruct (pd_pto p) as [s|n]; cbn [pto_truthy pto_str] in *; unfold no_offset in NO; apply orb_false_elim in NO; destruct NO as (N1 & N2).
      - rewrite N2. reflexivity.
      - destruct (n =? 0) eqn:Q0; [apply Z.eqb_eq in Q0; rewrite Q0 in N1; discriminate N1|reflexivity]. }
    assert (LV : lvl = true). { unfold lvl, at_period_level. rewrite TR. cbn [andb]. lia. }
    exists sb. split.
    + transitivity (tagged "SegmentBase" (x_kids z)).
      * eapply update_tagged_other; [|..|exact K]; [intros * ?; eapply adaptation_tag; eassumption|discriminate].
      * rewrite E by discriminate. rewrite LV, tagged_cons. reflexivity.
    + unfold sb. assert (Q : pto_not_zero_int (pd_pto p) = true).
      { destruct (pd_pto p) as [s|n]; [reflexivity|]. cbn in *. exact TR. }
      rewrite Q. reflexivity.
  - unfold children. rewrite kids_set_kids.
    assert (EE : tagged "AdaptationSet" (x_kids z) = tagged "AdaptationSet" (x_kids x)).
    { rewrite E by discriminate. destruct lvl; [rewrite tagged_cons|]; reflexivity. }
    rewrite <- EE. clear -HR K TF. revert g h k K TF. generalize (x_kids z) as l.
    induction l as [|y l IH]; intros g h k K TF; cbn [update_tagged] in K; [injection K as <- <-; constructor|].
    destruct (is_tag "AdaptationSet" y) eqn:E.
    + apply bind_inv in K. destruct K as ((s1, x1) & H1 & K).
      apply bind_inv in K. destruct K as ((s2, r2) & H2 & K). injection K as <- <-.
      rewrite !tagged_cons. rewrite (adaptation_tag _ _ _ _ _ _ _ H1). unfold is_tag in E. rewrite E.
      constructor; [eapply adaptation_generic; eassumption|eapply IH; [exact H2|]].
      eapply tracks_from_same; [|exact TF]. exact (adaptation_state _ _ _ _ _ _ _ H1).
    + apply bind_inv in K. destruct K as ((s2, r2) & H2 & K). injection K as <- <-.
      rewrite !tagged_cons. unfold is_tag in E. rewrite E. eapply IH; [exact H2|exact TF].
  - intros t N. unfold children. rewrite kids_set_kids.
    transitivity (tagged t (x_kids z)).
    + eapply update_tagged_other; [|..|exact K]; [intros * ?; eapply adaptation_tag; eassumption|intros ->; apply N; cbn; tauto].
    + rewrite E by (intros ->; apply N; cbn; tauto). destruct lvl; [rewrite tagged_cons|reflexivity].
      destruct (String.eqb_spec (x_tag sb) t) as [<-|]; [exfalso; apply N; cbn; tauto|reflexivity].
Qed.
End Templates.

(** *** The moment whose manifest is shown *)
Lemma loss_loop_moment : forall gen now m X T is em resp x, 0 <= m -> (exists em0, gen em0 now = Ok resp) ->
  loss_loop gen em now m X T is resp = Ok x -> exists em' t, t <= now /\ gen em' t = Ok x.
Proof.
  intros gen now m X T is. induction is as [|i is IH]; intros em resp x M (em0 & R) H; cbn [loss_loop] in H.
  - injection H as <-. exists em0, now. split; [lia|exact R].
  - destruct ((i * T + X <? m) && (m <=? (i + 1) * T))%bool eqn:B.
    + apply andb_true_iff in B. destruct B as (B & _). exists em. eexists. split; [|exact H]. lia.
    + destruct (m =? i * T + X).
      * apply bind_inv in H. destruct H as (r & R1 & H). eapply IH; [exact M|exists true; exact R1|exact H].
      * eapply IH; [exact M|exists em0; exact R|exact H].
Qed.
Lemma get_mpd_moment : forall c e src now x, get_mpd c e src now = Ok x ->
  exists em t, t <= now /\ (c_stl_loss c = false \/ c_multi_url c = [] -> t = now) /\ generate_dynamic_mpd c e src em t = Ok x.
Proof.
  intros c e src now x H.
  assert (D : (c_stl_loss c = false \/ c_multi_url c = []) \/ ~ (c_stl_loss c = false \/ c_multi_url c = [])).
  { destruct (c_stl_loss c); [|auto]. destruct (c_multi_url c); [auto|]. right. intros [K|K]; discriminate. }
  destruct D as [D|D].
  - exists (c_emsg_last c), now. split; [lia|]. split; [auto|]. apply get_mpd_plain; assumption.
  - unfold get_mpd in H. apply bind_inv in H. destruct H as (_ & _ & H). apply bind_inv in H. destruct H as (y & G & H).
    destruct (c_multi_url c) as [|u us]; [exfalso; auto|]. destruct (c_stl_loss c); [|exfalso; auto].
    apply bind_inv in H. destruct H as (((a, d1), (b, d2)) & _ & H). cbv zeta in H. destruct (d1 + d2 =? 0); [discriminate|].
    destruct (Ascii.eqb a "u" && Ascii.eqb b "d")%bool.
    + apply loss_loop_moment in H; [|apply Z.mod_pos_bound; lia|exists (c_emsg_last c); exact G].
      destruct H as (em & t & L & H). exists em, t. split; [exact L|]. split; [intros K; contradiction|exact H].
    + injection H as <-. exists (c_emsg_last c), now. split; [lia|]. split; [intros K; contradiction|exact G].
Qed.

(** *** Any children before the Period *)
Lemma leading_split : forall l, exists a b, l = (a ++ b)%list /\ Forall (fun y => x_tag y = "ProgramInformation"%string) a /\
  (b = [] \/ exists y r, b = y :: r /\ x_tag y <> "ProgramInformation"%string).
Proof.
  induction l as [|y l (a & b & -> & F & B)]; [exists [], []; auto|].
  destruct (string_dec (x_tag y) "ProgramInformation"%string) as [E|E].
  - exists (y :: a), b. split; [reflexivity|]. split; [constructor; assumption|exact B].
  - exists [], (y :: a ++ b)%list. split; [reflexivity|]. split; [constructor|]. right. exists y, (a ++ b)%list. auto.
Qed.
Lemma leading_unique : forall a b a' b' : list xml,
  Forall (fun y => x_tag y = "ProgramInformation"%string) a -> Forall (fun y => x_tag y = "ProgramInformation"%string) a' ->
  (b = [] \/ exists y r, b = y :: r /\ x_tag y <> "ProgramInformation"%string) ->
  (b' = [] \/ exists y r, b' = y :: r /\ x_tag y <> "ProgramInformation"%string) ->
  (a ++ b = a' ++ b')%list -> b = b'.
Proof.
  induction a as [|y a IH]; intros b a' b' FA FA' B B' E.
  - destruct a' as [|z a']; [exact E|]. cbn [app] in E. subst b. inversion FA' as [|? ? Z _]; subst.
    destruct B as [B|(y & r & B & N)]; [discriminate|]. injection B as <- _. contradiction.
  - inversion FA as [|? ? Y FA1]; subst. destruct a' as [|z a'].
    + cbn [app] in E. subst b'. destruct B' as [B'|(y' & r & B' & N)]; [discriminate|]. injection B' as <- _. contradiction.
    + inversion FA' as [|? ? Z FA1']; subst. injection E as _ E. exact (IH _ _ _ FA1 FA1' B B' E).
Qed.
Lemma insert_urls_any : forall c e d pre period rest kids pos,
  none "Period"%string pre -> x_tag period = "Period"%string ->
  insert_urls c e d (pre ++ period :: rest) = Ok (kids, pos) ->
  exists p1 p2, kids = (p1 ++ p2 ++ period :: rest)%list /\ pos = List.length p1 /\ none "Period"%string (p1 ++ p2) /\
    (forall t, ~ In t managed_tags -> filter (has_tag t) (p1 ++ p2) = filter (has_tag t) pre) /\
    (expected_front pre -> p2 = []).
Proof.
  intros c e d pre period rest kids pos NP TP H.
  destruct (leading_split pre) as (a & b & E & FA & B).
  assert (FR : expected_front pre -> b = [] \/ exists y, b = [y] /\ x_tag y = "BaseURL"%string).
  { intros (progs & bu & E2 & FP & BU). rewrite E in E2.
    apply leading_unique in E2; [|assumption..|]; [subst; exact BU|].
    destruct BU as [->|(y & -> & TY)]; [auto|]. right. exists y, []. rewrite TY. split; [reflexivity|discriminate]. }
  subst pre. apply Forall_app in NP. destruct NP as (NA & NB).
  rewrite <- app_assoc in H.
  set (tail := (b ++ period :: rest)%list) in *.
  assert (TL : exists y r, tail = y :: r /\ x_tag y <> "ProgramInformation"%string).
  { unfold tail. destruct B as [->|(y & r & -> & N)]; cbn [app]; eauto. exists period, rest. rewrite TP. split; [reflexivity|discriminate]. }
  assert (CL : count_leading "ProgramInformation" (a ++ tail) = List.length a).
  { clear - FA TL. destruct TL as (y & r & -> & N). induction FA as [|z a Z FA IH]; cbn [app count_leading List.length].
    - destruct (is_tag "ProgramInformation" y) eqn:Q; [apply is_tag_iff in Q; contradiction|reflexivity].
    - apply is_tag_iff in Z. rewrite Z, IH. reflexivity. }
  unfold insert_urls in H. rewrite CL in H.
  destruct TL as (y & r & T & _). rewrite T in H.
  rewrite nth_error_app2, Nat.sub_diag in H by lia. cbn [nth_error] in H.
  assert (LOC : forall u, none "Period"%string [Elem "Location" [] u []]) by (intros; repeat constructor; discriminate).
  assert (MT : forall t, ~ In t managed_tags -> forall z, (x_tag z = "BaseURL" \/ x_tag z = "Location")%string -> has_tag t z = false).
  { intros t N z Z. unfold has_tag. destruct (String.eqb_spec (x_tag z) t) as [<-|]; [|reflexivity].
    exfalso. apply N. unfold managed_tags. cbn [In]. destruct Z as [-> | ->]; tauto. }
  destruct (is_tag "BaseURL" y) eqn:BY.
  - apply is_tag_iff in BY.
    assert (Q : exists b', b = y :: b' /\ r = (b' ++ period :: rest)%list).
    { unfold tail in T. destruct b as [|y' b']; cbn [app] in T; injection T as -> <-; [congruence|]. exists b'. auto. }
    destruct Q as (b' & -> & ->). inversion NB as [|? ? _ NB']; subst.
    assert (SK : skipn (S (List.length a)) (a ++ y :: b' ++ period :: rest) = (b' ++ period :: rest)%list).
    { replace (a ++ y :: b' ++ period :: rest)%list with ((a ++ [y]) ++ b' ++ period :: rest)%list by (rewrite <- app_assoc; reflexivity).
      replace (S (List.length a)) with (List.length (a ++ [y])) by (rewrite app_length; cbn; lia). apply skipn_app_exact. }
    rewrite SK, firstn_app_exact in H. clear SK.
    destruct (c_add_loc c); cbn [bind] in H.
    + apply bind_inv in H. destruct H as (u & _ & H). injection H as <- <-.
      exists (a ++ [Elem "Location" [] u []])%list, b'.
      rewrite insert_at_app. split; [rewrite <- !app_assoc; reflexivity|].
      split; [rewrite app_length; cbn; lia|]. split; [repeat (apply Forall_app; split); auto|]. split.
      * intros t N. rewrite !filter_app. cbn [filter]. rewrite !MT by (cbn; auto). rewrite app_nil_r. reflexivity.
      * intros F. destruct (FR F) as [Z|(z & Z & _)]; [discriminate|]. injection Z as _ ->. reflexivity.
    + injection H as <- <-. exists (a ++ [Elem (x_tag y) (x_attrs y) (c_base_url c) (x_kids y)])%list, b'.
      split; [rewrite <- !app_assoc; reflexivity|]. split; [rewrite app_length; cbn; lia|].
      split; [repeat (apply Forall_app; split); auto; constructor; [cbn; congruence|constructor]|]. split.
      * intros t N. rewrite !filter_app. cbn [filter]. rewrite !MT by (cbn; auto). rewrite app_nil_r. reflexivity.
      * intros F. destruct (FR F) as [Z|(z & Z & _)]; [discriminate|]. injection Z as _ ->. reflexivity.
  - assert (P2 : expected_front (a ++ b) -> b = []).
    { intros F. destruct (FR F) as [Z|(z & -> & Z)]; [exact Z|]. exfalso. unfold tail in T. injection T as -> _.
      assert (is_tag "BaseURL" y = true) by (apply is_tag_iff; exact Z). congruence. }
    rewrite <- T in H. destruct (c_add_loc c); cbn [bind] in H.
    + apply bind_inv in H. destruct H as (u & _ & H). injection H as <- <-.
      exists (a ++ [Elem "Location" [] u []])%list, b. rewrite insert_at_app. unfold tail.
      split; [rewrite <- !app_assoc; reflexivity|].
      split; [rewrite app_length; cbn; lia|]. split; [repeat (apply Forall_app; split); auto|]. split; [|exact P2].
      intros t N. rewrite !filter_app. cbn [filter]. rewrite MT by (cbn; auto). rewrite app_nil_r. reflexivity.
    + apply bind_inv in H. destruct H as ((k1, q1) & H1 & H). injection H as <- <-.
      apply bind_inv in H1. destruct H1 as (us & U & H1). injection H1 as <- <-.
      exists (a ++ map (baseurl_elem d) us)%list, b. rewrite firstn_app_exact, skipn_app_exact. unfold tail.
      split; [rewrite <- !app_assoc; reflexivity|]. split; [rewrite app_length, map_length; reflexivity|].
      assert (BU : Forall (fun z => x_tag z = "BaseURL"%string) (map (baseurl_elem d) us)).
      { apply Forall_forall. intros z I. apply in_map_iff in I. destruct I as (u & <- & _). reflexivity. }
      split; [repeat (apply Forall_app; split); auto; eapply Forall_impl; [|exact BU]; cbv beta; intros z ->; discriminate|].
      split; [|exact P2].
      intros t N. rewrite !filter_app. rewrite (filter_none t "BaseURL" (map _ us)); [rewrite app_nil_r; reflexivity| |exact BU].
      intros ->. apply N. unfold managed_tags. cbn; tauto.
Qed.
Lemma find_period : forall p2 period rest, none "Period"%string p2 -> x_tag period = "Period"%string ->
  find_tag "Period" (p2 ++ period :: rest) = Some (List.length p2).
Proof.
  induction p2 as [|y p2 IH]; intros period rest N T; cbn [app find_tag List.length].
  - apply is_tag_iff in T. rewrite T. reflexivity.
  - inversion N as [|? ? N1 N2]; subst. destruct (is_tag "Period" y) eqn:E; [apply is_tag_iff in E; contradiction|].
    rewrite IH by assumption. reflexivity.
Qed.
(** Each period of the list is generated with the id of the one before it. *)
Fixpoint chained (R : string -> pdata -> xml -> Prop) (id : string) (ps : list pdata) (Ps : list xml) : Prop :=
  match ps, Ps with
  | [], [] => True
  | p :: ps', P :: Ps' => R id p P /\ chained R (pd_id p) ps' Ps'
  | _, _ => False
  end.
Lemma chained_forall : forall (R : string -> pdata -> xml -> Prop) ps Ps id, chained R id ps Ps -> Forall2 (fun p P => exists id, R id p P) ps Ps.
Proof.
  intros R ps. induction ps as [|p ps IH]; intros [|P Ps] id H; cbn [chained] in H; try contradiction; constructor.
  - exists id. apply H.
  - eapply IH. apply H.
Qed.
Lemma chained_impl : forall (R R' : string -> pdata -> xml -> Prop) ps Ps id, (forall i p P, R i p P -> R' i p P) ->
  chained R id ps Ps -> chained R' id ps Ps.
Proof.
  intros R R' ps. induction ps as [|p ps IH]; intros [|P Ps] id I H; cbn [chained] in *; try contradiction; auto.
  destruct H as (A & B). split; [apply I; exact A|]. apply IH; assumption.
Qed.
Lemma update_list_chain : forall e period r ps id g y, x_tag period = "Period"%string -> none "Period"%string r ->
  update_period_list e ps id g (repeat period (List.length ps) ++ r) = Ok y ->
  exists Ps, y = (Ps ++ r)%list /\
    chained (fun id p P => exists g1 g', update_period e p id g1 period = Ok (g', P) /\ tracks g1 = tracks g) id ps Ps.
Proof.
  intros e period r ps. induction ps as [|p ps IH]; intros id g y T N H; cbn [List.length repeat app] in H.
  - rewrite update_list_none in H by exact N. injection H as <-. exists []. split; [reflexivity|constructor].
  - cbn [update_period_list] in H. apply is_tag_iff in T. rewrite T in H. apply is_tag_iff in T.
    apply bind_inv in H. destruct H as ((g1, x1) & H1 & H). apply bind_inv in H. destruct H as (r1 & H2 & H). injection H as <-.
    destruct (IH _ _ _ T N H2) as (Ps & -> & F). exists (x1 :: Ps). split; [reflexivity|].
    cbn [chained]. split; [exists g, g1; split; [exact H1|reflexivity]|].
    eapply chained_impl; [|exact F]. cbv beta. intros i a b (g2 & g' & A & B). exists g2, g'. split; [exact A|].
    rewrite <- (period_state _ _ _ _ _ _ _ H1). exact B.
Qed.
Lemma children_gen : forall c e now em d ps pre period rest kids,
  none "Period"%string pre -> x_tag period = "Period"%string -> none "Period"%string rest ->
  ps <> [] ->
  process_mpd_children c e now em d ps (pre ++ period :: rest) = Ok kids ->
  exists pre' extra utcs Ps ps' cb,
    kids = (pre' ++ Ps ++ extra ++ utcs ++ rest)%list /\ none "Period"%string pre' /\ none "Period"%string extra /\
    (ps' = ps /\ extra = [] \/ List.length ps <> 1%nat /\ ~ expected_front pre /\ exists p r, ps = p :: r /\ ps' = [p]) /\
    utc_timings (me_wall e) (me_head_url e) (md_utc d) = Ok utcs /\
    (forall t, ~ In t managed_tags -> filter (has_tag t) pre' = filter (has_tag t) pre) /\
    chained (fun id p P => exists g g', update_period (mk_penv c now em d cb) p id g period = Ok (g', P) /\
                        tracks_from c (me_tables e) g) "-1" ps' Ps.
Proof.
  intros c e now em d ps pre period rest kids NP TP NR NE H. unfold process_mpd_children in H.
  apply bind_inv in H. destruct H as ((k1, q1) & H1 & H).
  destruct (insert_urls_any _ _ _ _ _ _ _ _ NP TP H1) as (p1 & p2 & -> & -> & N12 & FI & P2). clear H1.
  set (sd := if md_lowlat d then [service_description] else []) in *.
  apply Forall_app in N12. destruct N12 as (N1 & N2).
  assert (E : (if md_lowlat d then (insert_at (List.length p1) service_description (p1 ++ p2 ++ period :: rest),
                 S (List.length p1)) else ((p1 ++ p2 ++ period :: rest)%list, List.length p1))
              = (((p1 ++ sd) ++ p2 ++ period :: rest)%list, List.length (p1 ++ sd))).
  { unfold sd. destruct (md_lowlat d).
    - rewrite insert_at_app. f_equal; [rewrite <- !app_assoc; reflexivity|]. rewrite app_length. cbn [List.length]. lia.
    - rewrite !app_nil_r. reflexivity. }
  rewrite E in H. cbv beta iota in H. clear E.
  assert (N1' : none "Period"%string (p1 ++ sd)).
  { apply Forall_app. split; [exact N1|]. unfold sd. destruct (md_lowlat d); repeat constructor. discriminate. }
  assert (FI' : forall t, ~ In t managed_tags -> filter (has_tag t) ((p1 ++ sd) ++ p2) = filter (has_tag t) pre).
  { intros t N. rewrite <- (FI t N), !filter_app. rewrite (filter_none t "ServiceDescription" sd); [rewrite app_nil_r; reflexivity| |].
    - intros ->. apply N. unfold managed_tags. cbn; tauto.
    - unfold sd. destruct (md_lowlat d); repeat constructor. }
  clear FI N1. set (p1' := (p1 ++ sd)%list) in *. clearbody p1'. clear sd p1. rename p1' into p1.
  rewrite skipn_app_exact, find_period in H by assumption.
  rewrite nth_error_app2, Nat.sub_diag in H by lia.
  destruct (nth_error (p2 ++ period :: rest) 0) as [q|] eqn:Q; [|discriminate].
  apply bind_inv in H. destruct H as (utcs & UT & H).
  set (pre' := (p1 ++ p2)%list) in *.
  replace (List.length p1 + List.length p2)%nat with (List.length pre') in H by (unfold pre'; rewrite app_length; reflexivity).
  replace (p1 ++ p2 ++ period :: rest)%list with ((pre' ++ [period]) ++ rest)%list in H by (unfold pre'; rewrite <- !app_assoc; reflexivity).
  replace (S (List.length pre')) with (List.length (pre' ++ [period])%list) in H by (rewrite app_length; cbn [List.length]; lia).
  rewrite firstn_app_exact, skipn_app_exact in H.
  assert (R : exists extra ps', ((pre' ++ [period]) ++ repeat q (List.length ps - 1) ++ rest)%list = ((pre' ++ repeat period (List.length ps') ++ extra) ++ rest)%list /\
              List.length (repeat period (List.length ps') ++ extra)%list = List.length ps /\ none "Period"%string extra /\
              (ps' = ps /\ extra = [] \/ List.length ps <> 1%nat /\ ~ expected_front pre /\ exists p r, ps = p :: r /\ ps' = [p])).
  { destruct ps as [|p ps]; [contradiction|]. destruct p2 as [|q2 p2'].
    - cbn in Q. injection Q as <-. exists [], (p :: ps).
      split; [cbn [List.length repeat]; rewrite Nat.sub_succ, Nat.sub_0_r, app_nil_r, <- !app_assoc; reflexivity|].
      split; [rewrite app_nil_r, repeat_length; reflexivity|]. split; [constructor|]. left. auto.
    - cbn in Q. injection Q as <-. inversion N2 as [|? ? NQ _]; subst. destruct ps as [|p' ps].
      + exists [], [p]. cbn [List.length Nat.sub repeat app]. rewrite <- !app_assoc. cbn [app].
        split; [reflexivity|]. split; [reflexivity|]. split; [constructor|]. left. auto.
      + exists (repeat q2 (S (List.length ps))), [p]. split; [cbn [List.length Nat.sub repeat app]; rewrite <- !app_assoc; reflexivity|].
        split; [rewrite app_length, !repeat_length; reflexivity|].
        split; [apply Forall_forall; intros y Y; apply repeat_spec in Y; subst; exact NQ|].
        right. split; [discriminate|]. split; [|eauto]. intros O. specialize (P2 O). discriminate. }
  destruct R as (extra & ps' & R & LR & NX & CS).
  rewrite R in H. clear R. rewrite <- LR in H. 
  replace (List.length pre' + List.length (repeat period (List.length ps') ++ extra))%nat
    with (List.length (pre' ++ repeat period (List.length ps') ++ extra)%list) in H by (rewrite app_length; reflexivity).
  rewrite firstn_app_exact, skipn_app_exact in H. unfold update_periods in H.
  apply bind_inv in H. destruct H as (g & G & H).
  assert (Gn : forall g2, tracks g2 = tracks g -> tracks_from c (me_tables e) g2).
  { unfold tracks_from. intros g2 E2. destruct (c_segtl c || c_segtlnr c)%bool.
    - right. apply bind_inv in G. destruct G as (g0 & G0 & G). injection G as <-. unfold make_generators in G0.
      apply bind_inv in G0. destruct G0 as (v & V & G0). apply bind_inv in G0. destruct G0 as (a & A & G0). injection G0 as <-.
      destruct g2 as [h|]; [|discriminate]. injection E2 as E3 E4. exists h. rewrite E3, E4. auto.
    - left. injection G as <-. destruct g2; [discriminate|auto]. }
  rewrite <- !app_assoc in H.
  assert (NP' : none "Period"%string pre') by (unfold pre'; apply Forall_app; auto).
  apply update_list_prefix in H; [|exact NP'].
  destruct H as (r' & H & ->).
  assert (NXR : none "Period"%string (extra ++ utcs ++ rest)).
  { apply Forall_app. split; [exact NX|]. apply Forall_app. split; [|exact NR]. eapply Forall_impl; [|eapply utc_tags; exact UT]. cbv beta. intros y Y. congruence. }
  assert (CH : exists Ps, r' = (Ps ++ extra ++ utcs ++ rest)%list /\
     chained (fun id p P => exists g1 g', update_period (mk_penv c now em d (callback_url (pre' ++ repeat period (List.length ps') ++ extra ++ utcs ++ rest))) p id g1 period = Ok (g', P) /\ tracks g1 = tracks g) "-1" ps' Ps).
  { destruct CS as [(-> & _)|(_ & _ & p & r & -> & ->)].
    - apply update_list_chain in H; [exact H|exact TP|exact NXR].
    - cbn [List.length repeat app update_period_list] in H. apply is_tag_iff in TP. rewrite TP in H. apply is_tag_iff in TP.
      apply bind_inv in H. destruct H as ((g1, x1) & H1 & H). apply bind_inv in H. destruct H as (r1 & H2 & H). injection H as <-.
      rewrite update_list_none in H2 by exact NXR. injection H2 as <-. exists [x1]. split; [reflexivity|]. cbn [chained].
      split; [exists g, g1; split; [exact H1|reflexivity]|exact I]. }
  destruct CH as (Ps & -> & F). exists pre', extra, utcs, Ps, ps'. eexists. split; [reflexivity|].
  split; [exact NP'|]. split; [exact NX|]. split; [exact CS|]. split; [exact UT|]. split; [exact FI'|].
  eapply chained_impl; [|exact F]. cbv beta. intros i a b (g2 & g' & A & B). exists g2, g'. split; [exact A|]. apply Gn. exact B.
Qed.
Lemma children_any : forall c e now em d ps pre period rest kids,
  none "Period"%string pre -> x_tag period = "Period"%string -> none "Period"%string rest ->
  ps <> [] -> List.length ps = 1%nat \/ expected_front pre ->
  process_mpd_children c e now em d ps (pre ++ period :: rest) = Ok kids ->
  exists pre' utcs Ps cb,
    kids = (pre' ++ Ps ++ utcs ++ rest)%list /\ none "Period"%string pre' /\
    utc_timings (me_wall e) (me_head_url e) (md_utc d) = Ok utcs /\
    (forall t, ~ In t managed_tags -> filter (has_tag t) pre' = filter (has_tag t) pre) /\
    chained (fun id p P => exists g g', update_period (mk_penv c now em d cb) p id g period = Ok (g', P) /\
                        tracks_from c (me_tables e) g) "-1" ps Ps.
Proof.
  intros c e now em d ps pre period rest kids NP TP NR NE ONE H.
  destruct (children_gen _ _ _ _ _ _ _ _ _ _ NP TP NR NE H) as (pre' & extra & utcs & Ps & ps' & cb & -> & A & _ & [(-> & ->)|(L & E & _)] & B & C & D).
  - exists pre', utcs, Ps, cb. auto.
  - exfalso. destruct ONE as [O|O]; [exact (L O)|exact (E O)].
Qed.

(** The generated tree, tag by tag. *)
Lemma tree_chain : forall c e src em now x pre period rest d sn mup ps,
  x_kids src = (pre ++ period :: rest)%list ->
  none "Period"%string pre -> x_tag period = "Period"%string -> none "Period"%string rest ->
  generate_dynamic_mpd c e src em now = Ok x -> mpd_data_of c now = Ok d ->
  adjusted_start_number c = Ok sn -> generate_period_data c sn (adjusted_pto c 0 1) now = Ok (mup, ps) ->
  ps <> [] -> List.length ps = 1%nat \/ expected_front pre ->
  exists cb,
    chained (fun id p P => exists g g', update_period (mk_penv c now em d cb) p id g period = Ok (g', P) /\
                        tracks_from c (me_tables e) g) "-1" ps (children "Period" x) /\
    (forall t, ~ In t managed_tags -> children t x = children t src).
Proof.
  intros c e src em now x pre period rest d sn mup ps K NP TP NR G D SN GP NE ONE.
  destruct (generate_inv _ _ _ _ _ _ G) as (d' & sn' & mup' & ps' & root & kids & D' & SN' & GP' & _ & H & ->).
  rewrite D in D'. injection D' as <-. rewrite SN in SN'. injection SN' as <-. rewrite GP in GP'. injection GP' as <- <-.
  rewrite K in H.
  destruct (children_any _ _ _ _ _ _ _ _ _ _ NP TP NR NE ONE H) as (pre' & utcs & Ps & cb & -> & NP' & UT & FI & F).
  exists cb.
  assert (TPs : Forall (fun y => x_tag y = "Period"%string) Ps).
  { apply chained_forall in F. clear - F TP. induction F as [|p P ps Ps (id & g & g' & A & _) F IH]; constructor; [|exact IH].
    rewrite (period_tag _ _ _ _ _ _ _ A). exact TP. }
  assert (TU := utc_tags _ _ _ _ UT).
  unfold children. rewrite kids_set_kids. split.
  - change (fun y => String.eqb (x_tag y) "Period") with (has_tag "Period"). rewrite !filter_app.
    rewrite (filter_none' "Period" pre'), (filter_all "Period" Ps), (filter_none "Period" "UTCTiming" utcs), (filter_none' "Period" rest);
      try assumption; try discriminate.
    cbn [app]. rewrite !app_nil_r. exact F.
  - intros t N. change (fun y => String.eqb (x_tag y) t) with (has_tag t). rewrite K, !filter_app, (FI t N).
    unfold managed_tags in N. cbn [In] in N.
    rewrite (filter_none t "Period" Ps), (filter_none t "UTCTiming" utcs); try assumption; try (intros ->; tauto).
    cbn [app filter].
    assert (E : has_tag t period = false) by (unfold has_tag; rewrite TP; destruct (String.eqb_spec "Period" t) as [<-|]; [tauto|reflexivity]).
    rewrite E. reflexivity.
Qed.

(** The Periods of any generated tree: the whole schedule, or its first period. *)
Lemma tree_periods : forall c e src em now x pre period rest d sn mup ps,
  x_kids src = (pre ++ period :: rest)%list ->
  none "Period"%string pre -> x_tag period = "Period"%string -> none "Period"%string rest ->
  generate_dynamic_mpd c e src em now = Ok x -> mpd_data_of c now = Ok d ->
  adjusted_start_number c = Ok sn -> generate_period_data c sn (adjusted_pto c 0 1) now = Ok (mup, ps) ->
  ps <> [] ->
  exists cb ps', (ps' = ps \/ exists p r, ps = p :: r /\ ps' = [p]) /\
    chained (fun id p P => exists g g', update_period (mk_penv c now em d cb) p id g period = Ok (g', P) /\
                        tracks_from c (me_tables e) g) "-1" ps' (children "Period" x).
Proof.
  intros c e src em now x pre period rest d sn mup ps K NP TP NR G D SN GP NE.
  destruct (generate_inv _ _ _ _ _ _ G) as (d' & sn' & mup' & ps0 & root & kids & D' & SN' & GP' & _ & H & ->).
  rewrite D in D'. injection D' as <-. rewrite SN in SN'. injection SN' as <-. rewrite GP in GP'. injection GP' as <- <-.
  rewrite K in H.
  destruct (children_gen _ _ _ _ _ _ _ _ _ _ NP TP NR NE H) as (pre' & extra & utcs & Ps & ps' & cb & -> & NP' & NX & CS & UT & _ & F).
  exists cb, ps'. split; [destruct CS as [(-> & _)|(_ & _ & C)]; auto|].
  assert (TPs : Forall (fun y => x_tag y = "Period"%string) Ps).
  { apply chained_forall in F. clear - F TP. induction F as [|p P ps Ps (id & g & g' & A & _) F IH]; constructor; [|exact IH].
    rewrite (period_tag _ _ _ _ _ _ _ A). exact TP. }
  assert (TU := utc_tags _ _ _ _ UT).
  unfold children. rewrite kids_set_kids.
  change (fun y => String.eqb (x_tag y) "Period") with (has_tag "Period"). rewrite !filter_app.
  rewrite (filter_none' "Period" pre'), (filter_all "Period" Ps), (filter_none' "Period" extra), (filter_none "Period" "UTCTiming" utcs), (filter_none' "Period" rest);
    try assumption; try discriminate.
  cbn [app]. rewrite !app_nil_r. exact F.
Qed.

Lemma tree_any : forall c e src em now x pre period rest d sn mup ps,
  x_kids src = (pre ++ period :: rest)%list ->
  none "Period"%string pre -> x_tag period = "Period"%string -> none "Period"%string rest ->
  generate_dynamic_mpd c e src em now = Ok x -> mpd_data_of c now = Ok d ->
  adjusted_start_number c = Ok sn -> generate_period_data c sn (adjusted_pto c 0 1) now = Ok (mup, ps) ->
  ps <> [] -> List.length ps = 1%nat \/ expected_front pre ->
  exists cb,
    Forall2 (fun p P => exists id g g', update_period (mk_penv c now em d cb) p id g period = Ok (g', P) /\
                        tracks_from c (me_tables e) g) ps (children "Period" x) /\
    (forall t, ~ In t managed_tags -> children t x = children t src).
Proof.
  intros c e src em now x pre period rest d sn mup ps K NP TP NR G D SN GP NE ONE.
  destruct (tree_chain _ _ _ _ _ _ _ _ _ _ _ _ _ K NP TP NR G D SN GP NE ONE) as (cb & F & O). exists cb. split; [|exact O].
  eapply Forall2_impl; [|eapply chained_forall; exact F]. cbv beta. intros a b (id & g & g' & A). exists id, g, g'. exact A.
Qed.

Lemma F2_len : forall A B (R : A -> B -> Prop) l m, Forall2 R l m -> List.length l = List.length m.
Proof. intros A B R l m F. induction F; cbn; congruence. Qed.
(** A schedule is never empty when the time shift buffer is not negative. *)
Lemma schedule_nonempty : forall c sn pto now mup ps,
  (forall b, c_tsbd c = Some b -> 0 <= b + c_seg_dur c) -> generate_period_data c sn pto now = Ok (mup, ps) -> ps <> [].
Proof.
  intros c sn pto now mup ps B H. unfold generate_period_data in H. cbv zeta in H.
  destruct (count_allowed (Z.min (c_pph c) 60)) eqn:CA; cbn [negb] in H; [|discriminate].
  apply bind_inv in H. destruct H as (ad & _ & H).
  destruct (Z.eqb_spec (Z.min (c_pph c) 60) (-1)) as [|N1]; [apply bind_inv in H; destruct H as (q & _ & H); injection H as _ <-; discriminate|].
  destruct (Z.eqb_spec (Z.min (c_pph c) 60) 0) as [|N2]; [apply bind_inv in H; destruct H as (q & _ & H); injection H as _ <-; discriminate|].
  set (n := Z.min (c_pph c) 60) in *. set (pd := 3600 / n) in *.
  destruct (c_tsbd c) as [b|]; [|discriminate]. specialize (B b eq_refl).
  apply bind_inv in H. destruct H as (r & L & H). injection H as _ <-.
  destruct (period_loop_core _ _ _ _ _ _ _ L) as (ys & Y & C). 
  assert (PD : 0 < pd).
  { unfold count_allowed in CA. apply existsb_exists in CA. destruct CA as (k & I & E). apply Z.eqb_eq in E.
    unfold allowed_counts in I. cbn [In] in I.
    assert (1 <= n <= 60) by lia. unfold pd. apply Z.div_str_pos. lia. }
  assert (Q : (now - b - c_seg_dur c) / pd <= (now + pd / 2) / pd).
  { apply Z.div_le_mono; [exact PD|]. assert (0 <= pd / 2) by (apply Z.div_pos; lia). lia. }
  intros F. apply (f_equal (@List.length _)) in F. rewrite fill_length, rev_length in F. cbn in F.
  apply (f_equal (@List.length _)) in C. rewrite app_length, !map_length, ?rev_length, ?map_length in C.
  assert (LY : List.length ys = List.length (zrange ((now - b - c_seg_dur c) / pd) ((now + pd / 2) / pd))) by (apply mapM_ok in Y; symmetry; exact (F2_len _ _ _ _ _ Y)).
  unfold zrange in LY. rewrite map_length, seq_length in LY. cbn [List.length] in C. lia.
Qed.
