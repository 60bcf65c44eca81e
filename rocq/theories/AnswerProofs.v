(** Lemmas for C81. *)
From Coq Require Import ZifyBool ZifyNat Znumtheory.
From Verif Require Import Base BaseProofs ConfigModel ProxyModel StrModel TimelineModel TimelineSpec TimelineProofs TimelineTotal PeriodModel MpdModel MpdProofs Mpd3Spec AnswerSpec.
Open Scope Z_scope.

Lemma evenly_mod : forall c m, 0 < m -> evenly c m -> periods c mod Z.min m 60 = 0.
Proof. intros c m H (k & E). rewrite E. apply Z.mod_mul. lia. Qed.

Lemma checks_ok : forall c, consistent c -> mpd_option_checks c = Ok tt.
Proof.
  intros c S. unfold mpd_option_checks. destruct (Z.ltb_spec 0 (Z.min (c_xlink c) 60)) as [X|X]; cbn [andb].
  - destruct (links c S ltac:(lia)) as [P E]. destruct (Z.eqb_spec (Z.min (c_pph c) 60) (-1)); [lia|].
    change (Z.min (c_pph c) 60) with (periods c). rewrite evenly_mod by (assumption || lia). cbn [Z.eqb negb].
    destruct (Z.ltb_spec (Z.min (c_xlink c) 60) 0); [lia|]. rewrite andb_false_r. reflexivity.
  - destruct (Z.ltb_spec 0 (c_insert_ad c)) as [A|A]; cbn [andb]; [|reflexivity].
    pose proof (ads c S A). lia.
Qed.

Lemma div_ok : forall a b, 0 < b -> py_div a b = Ok (a / b).
Proof. intros. unfold py_div. destruct (Z.eqb_spec b 0); [lia|reflexivity]. Qed.

Lemma quotient_ok : forall n m, n mod m = 0 -> quotient_or_raise n m = Ok (n / m).
Proof. intros n m H. unfold quotient_or_raise. rewrite H. reflexivity. Qed.

(** When there are callbacks at all *)
Definition has_callbacks (c : config) : Prop := 0 < c_callback c /\ 0 < c_pph c.

Lemma one_period_ok : forall c nr, consistent c -> 0 < periods c -> exists p, one_period c (periods c) (3600 / periods c) nr = Ok p /\ (pd_callback p = true -> has_callbacks c).
Proof.
  intros c nr S P. assert (P0 : 0 < c_pph c) by (unfold periods in P; lia). unfold one_period. rewrite div_ok by apply S. cbn [bind].
  assert (E : exists o, etp_of c (periods c) (3600 / periods c) nr = Ok o).
  { unfold etp_of. destruct (Z.ltb_spec 0 (c_etp c)) as [H|H]; [|eexists; reflexivity]. destruct (early_ends c S H P0) as [V D].
    rewrite quotient_ok by (apply evenly_mod; assumption). cbn [bind].
    assert (0 <= 3600 / periods c) by (apply Z.div_pos; lia).
    assert (3600 / periods c / 2 <= 3600 / periods c) by (apply Z.div_le_upper_bound; lia).
    destruct (Z.eqb_spec (c_etpdur c) (-1)) as [T|T]; cbv zeta.
    - destruct (Z.ltb_spec (3600 / periods c) (3600 / periods c / 2)); [lia|]. eexists; reflexivity.
    - destruct D as [D|D]; [contradiction|]. destruct (Z.ltb_spec (3600 / periods c) (c_etpdur c)); [lia|]. eexists; reflexivity. }
  destruct E as [o ->]. cbn [bind]. unfold callback_of. destruct (Z.ltb_spec 0 (c_callback c)) as [H|H].
  - rewrite quotient_ok by (apply evenly_mod; [exact H|]; apply (callbacks c S H P0)). cbn [bind]. eexists. split; [reflexivity|]. intros _. split; assumption.
  - cbn [bind]. eexists. split; [reflexivity|]. discriminate.
Qed.

Definition callbacks_only (c : config) (l : list pdata) : Prop := Forall (fun p => pd_callback p = true -> has_callbacks c) l.
Lemma loop_ok : forall c ad nrs acc, consistent c -> 0 < periods c -> callbacks_only c acc ->
  exists l, period_loop c (periods c) (3600 / periods c) ad nrs acc = Ok l /\ callbacks_only c l.
Proof.
  intros c ad nrs. induction nrs as [|nr nrs IH]; intros acc S P A; cbn [period_loop]; [eexists; split; [reflexivity|exact A]|].
  destruct (one_period_ok c nr S P) as (p & -> & Hp). cbn [bind]. apply IH; try assumption. constructor; [exact Hp|].
  destruct acc as [|q acc]; [constructor|]. destruct ((0 <? ad) && (nr mod ad =? 0)); [|exact A]. inversion A; subst. constructor; [|assumption].
  unfold set_ad_duration. cbn [pd_callback]. assumption.
Qed.
Lemma fill_only : forall c pd l, callbacks_only c l -> callbacks_only c (fill_durations pd l).
Proof.
  intros c pd l. induction l as [|p l IH]; intros H; [constructor|]. inversion H as [|? ? H1 H2]; subst.
  destruct l as [|q l]; [exact H|]. change (callbacks_only c ((match pd_period_duration_s p with None => set_duration_s pd p | Some _ => p end) :: fill_durations pd (q :: l))).
  constructor; [destruct (pd_period_duration_s p); exact H1|apply IH; exact H2].
Qed.

Lemma periods_ok : forall c sn pto now, consistent c -> exists mup ps, generate_period_data c sn pto now = Ok (mup, ps) /\ callbacks_only c ps.
Proof.
  intros c sn pto now S. unfold generate_period_data. cbv zeta. change (Z.min (c_pph c) 60) with (periods c).
  assert (K : count_allowed (periods c) = true).
  { unfold count_allowed. apply existsb_exists. exists (periods c). split; [exact (counts c S)|apply Z.eqb_refl]. }
  rewrite K. cbn [negb].
  assert (A : exists f, (if 0 <? c_insert_ad c then py_div (periods c) (c_xlink c) else Ok (-1)) = Ok f).
  { destruct (Z.ltb_spec 0 (c_insert_ad c)) as [A|A]; [|eexists; reflexivity]. rewrite div_ok by (exact (ads c S A)). eexists. reflexivity. }
  destruct A as [f ->]. cbn [bind].
  destruct (Z.eqb_spec (periods c) (-1)) as [N|N].
  { rewrite div_ok by apply S. cbn [bind]. do 2 eexists. split; [reflexivity|]. constructor; [discriminate|constructor]. }
  destruct (Z.eqb_spec (periods c) 0) as [N0|N0].
  { rewrite div_ok by apply S. cbn [bind]. do 2 eexists. split; [reflexivity|]. constructor; [discriminate|constructor]. }
  assert (P : 0 < periods c).
  { pose proof (counts c S) as I. unfold period_counts in I. cbn [In] in I. lia. }
  pose proof (buffer c S) as B. destruct (c_tsbd c) as [b|]; [|contradiction].
  edestruct (loop_ok c f) as (l & -> & L); [exact S|exact P|constructor|]. cbn [bind]. do 2 eexists. split; [reflexivity|].
  apply fill_only. apply Forall_rev. exact L.
Qed.

Lemma utc_ok : forall w h l, Forall (fun m => In m utc_methods) l -> exists r, utc_timings w h l = Ok r.
Proof.
  intros w h l. induction l as [|m l IH]; intros H; [eexists; reflexivity|]. inversion H as [|? ? M L]; subst. cbn [utc_timings].
  assert (E : exists x, utc_timing w h m = Ok x).
  { unfold utc_methods in M. cbn [In] in M. unfold utc_timing. repeat (destruct M as [<-|M]; [eexists; reflexivity|]). contradiction. }
  destruct E as [x ->]. cbn [bind]. destruct (IH L) as [r ->]. eexists. reflexivity.
Qed.

Lemma root_ok : forall c d mup now x, x_tag x = "MPD"%string -> md_add_profile d = match c_chunkdur c with Some q => Qltb 0 q | None => false end ->
  (uses_profiles c -> get "profiles" x <> None) -> exists y, process_mpd c d mup now x = Ok y /\ x_kids y = x_kids x.
Proof.
  intros c d mup now [t a s k] T M P. cbn [x_tag] in T. subst t. unfold process_mpd. cbn [is_tag x_tag String.eqb Ascii.eqb Bool.eqb negb].
  change (is_tag "MPD" (Elem "MPD" a s k)) with true. cbn [negb]. cbv zeta.
  assert (G : forall key v l, key <> "profiles"%string -> attr "profiles" (attr_set key v l) = attr "profiles" l).
  { intros key v l N. induction l as [|[q w] l IH]; cbn [attr_set attr].
    - destruct (String.eqb_spec key "profiles"); [contradiction|reflexivity].
    - destruct (String.eqb_spec q key) as [->|]; cbn [attr]; [destruct (String.eqb_spec key "profiles"); [contradiction|reflexivity]|].
      destruct (String.eqb q "profiles"); [reflexivity|exact IH]. }
  assert (GS : forall v l, attr "profiles" (attr_set "profiles" v l) = Some v).
  { intros v l. induction l as [|[q w] l IH]; cbn [attr_set attr]; [reflexivity|]. destruct (String.eqb_spec q "profiles") as [->|N]; cbn [attr].
    - reflexivity.
    - destruct (String.eqb_spec q "profiles"); [contradiction|exact IH]. }
  set (x0 := set "type" (if md_static d then "static" else "dynamic") (Elem "MPD" a s k)).
  assert (P0 : uses_profiles c -> get "profiles" x0 <> None).
  { intros U. unfold x0, get, set. cbn [x_attrs]. rewrite G by discriminate. exact (P U). }
  assert (K0 : x_kids x0 = k) by reflexivity. clearbody x0.
  assert (S1 : exists x1, (if 0 <? c_scte35 c then match get "profiles" x0 with None => Err "AttributeError" | Some p => Ok (if contains scte35_profile p then x0 else set "profiles" (p ++ "," ++ scte35_profile) x0) end else Ok x0) = Ok x1
      /\ (uses_profiles c -> get "profiles" x1 <> None) /\ x_kids x1 = k).
  { destruct (Z.ltb_spec 0 (c_scte35 c)) as [H|H]; [|exists x0; auto]. assert (U : uses_profiles c) by (left; exact H).
    destruct (get "profiles" x0) as [p|] eqn:E; [|exfalso; exact (P0 U eq_refl)]. eexists. split; [reflexivity|]. destruct (contains scte35_profile p).
    - rewrite E. split; [discriminate|exact K0].
    - destruct x0 as [t0 a0 s0 k0]. unfold get, set. cbn [x_attrs x_kids] in *. rewrite GS. split; [discriminate|exact K0]. }
  destruct S1 as (x1 & E1 & P1 & K1). rewrite E1. cbn [bind]. clear E1.
  assert (S2 : exists x2, (if c_stl_loss c then match get "profiles" x1 with None => Err "AttributeError" | Some p => Ok (if contains "dash-if-simple" p then set "profiles" (replace_all "dash-if-simple" "dash-if-main" p) x1 else x1) end else Ok x1) = Ok x2
      /\ (uses_profiles c -> get "profiles" x2 <> None) /\ x_kids x2 = k).
  { destruct (c_stl_loss c) eqn:H; [|exists x1; auto]. assert (U : uses_profiles c) by (right; left; exact H).
    destruct (get "profiles" x1) as [p|] eqn:E; [|exfalso; exact (P1 U eq_refl)]. eexists. split; [reflexivity|]. destruct (contains "dash-if-simple" p).
    - destruct x1 as [t0 a0 s0 k0]. unfold get, set. cbn [x_attrs x_kids] in *. rewrite GS. split; [discriminate|exact K1].
    - rewrite E. split; [discriminate|exact K1]. }
  destruct S2 as (x2 & E2 & P2 & K2). rewrite E2. cbn [bind]. clear E2.
  match goal with |- exists y, bind ?m _ = _ /\ _ => assert (S3 : exists x3, m = Ok x3 /\ x_kids x3 = k) end.
  { rewrite M. destruct (c_chunkdur c) as [q|] eqn:C; [|exists x2; auto]. destruct (Qltb 0 q) eqn:Q; [|exists x2; auto].
    assert (U : uses_profiles c) by (right; right; exists q; split; [exact C|]; apply Qltb_true; exact Q).
    destruct (get "profiles" x2) as [p|] eqn:E; [|exfalso; exact (P2 U eq_refl)]. eexists. split; [reflexivity|]. destruct x2 as [t0 a0 s0 k0]. exact K2. }
  destruct S3 as (x3 & -> & K3). cbn [bind]. eexists. split; [reflexivity|]. rewrite <- K3. cbn [x_kids]. rewrite ?K3.
  assert (KS : forall key v y, x_kids (set key v y) = x_kids y) by (intros ? ? [? ? ? ?]; reflexivity).
  assert (KO : forall key v y, x_kids (set_opt key v y) = x_kids y) by (intros ? [v|] [? ? ? ?]; reflexivity).
  assert (KD : forall key y, x_kids (del key y) = x_kids y) by (intros ? [? ? ? ?]; reflexivity).
  repeat first [rewrite KS|rewrite KO|rewrite KD|match goal with |- context [if ?b then _ else _] => destruct b end|match goal with |- context [match ?o with Some _ => _ | None => _ end] => destruct o end]; assumption.
Qed.

(** The callback address of the processor is there when it is wanted *)
Definition address_ready (c : config) (r : result string) : Prop := has_callbacks c -> exists u, r = Ok u.
(** A period as generate_period_data makes it *)
Definition timed (c : config) (now : Z) (p : pdata) : Prop :=
  (exists z, pto_int (pd_pto p) = Ok z)
  /\ ((0 < periods c -> forall b, c_tsbd c = Some b -> b + c_seg_dur c <= now) -> 0 <= pd_start_s p)
  /\ (forall d, pd_period_duration_s p = Some d -> 0 < periods c /\ In d (period_lengths c)).
Lemma one_period_timed : forall c now nr p, 0 < periods c ->
  ((forall b, c_tsbd c = Some b -> b + c_seg_dur c <= now) -> 0 <= nr) ->
  one_period c (periods c) (3600 / periods c) nr = Ok p -> timed c now p.
Proof.
  intros c now nr p P N H. unfold one_period in H. apply bind_ok in H. destruct H as (sn & _ & H). apply bind_ok in H. destruct H as (o & O & H).
  apply bind_ok in H. destruct H as (cb & _ & H). injection H as <-. split; [eexists; reflexivity|]. split.
  - intros B. cbn [pd_start_s]. apply Z.mul_nonneg_nonneg; [apply N; exact (B P)|]. apply Z.div_pos; lia.
  - intros d D. cbn [pd_period_duration_s] in D. subst o. split; [exact P|]. unfold etp_of in O. unfold period_lengths.
    destruct (0 <? c_etp c); [|discriminate]. apply bind_ok in O. destruct O as (k & _ & O). cbv zeta in O.
    destruct (_ <? _); [discriminate|]. destruct (_ =? 0); [|discriminate]. injection O as O. right. left. exact O.
Qed.
Lemma loop_timed : forall c now ad nrs acc l, 0 < periods c ->
  ((forall b, c_tsbd c = Some b -> b + c_seg_dur c <= now) -> Forall (fun nr => 0 <= nr) nrs) ->
  Forall (timed c now) acc -> period_loop c (periods c) (3600 / periods c) ad nrs acc = Ok l -> Forall (timed c now) l.
Proof.
  intros c now ad nrs. induction nrs as [|nr nrs IH]; intros acc l P N A H; cbn [period_loop] in H; [injection H as <-; exact A|].
  apply bind_ok in H. destruct H as (p & E & H). refine (IH _ l P _ _ H); [intros B; specialize (N B); inversion N; assumption|].
  constructor; [eapply one_period_timed; [exact P| |exact E]; intros B; specialize (N B); inversion N; assumption|].
  destruct acc as [|q acc]; [constructor|]. inversion A as [|? ? A1 A2]; subst. destruct ((0 <? ad) && (nr mod ad =? 0)); [|exact A].
  constructor; [|exact A2]. destruct A1 as (T1 & T2 & T3). split; [exact T1|]. split; [exact T2|]. intros d D. cbn [set_ad_duration pd_period_duration_s] in D. injection D as <-.
  split; [exact P|]. left. reflexivity.
Qed.
Lemma fill_timed : forall c now l, 0 < periods c -> Forall (timed c now) l -> Forall (timed c now) (fill_durations (3600 / periods c) l).
Proof.
  intros c now l P. induction l as [|p l IH]; intros H; [constructor|]. inversion H as [|? ? H1 H2]; subst.
  destruct l as [|q l]; [exact H|].
  change (Forall (timed c now) ((match pd_period_duration_s p with None => set_duration_s (3600 / periods c) p | Some _ => p end) :: fill_durations (3600 / periods c) (q :: l))).
  constructor; [|apply IH; exact H2]. destruct (pd_period_duration_s p) eqn:D; [exact H1|]. destruct H1 as (T1 & T2 & T3). split; [exact T1|]. split; [exact T2|].
  intros d E. cbn [set_duration_s pd_period_duration_s] in E. injection E as <-. split; [exact P|]. left. reflexivity.
Qed.
Lemma periods_timed : forall c sn pto now mup ps, consistent c -> generate_period_data c sn pto now = Ok (mup, ps) -> Forall (timed c now) ps.
Proof.
  intros c sn pto now mup ps S H. unfold generate_period_data in H. cbv zeta in H. change (Z.min (c_pph c) 60) with (periods c) in H.
  destruct (negb _); [discriminate|]. apply bind_ok in H. destruct H as (f & _ & H).
  destruct (Z.eqb_spec (periods c) (-1)) as [N|N].
  { apply bind_ok in H. destruct H as (q & _ & H). injection H as _ <-. constructor; [|constructor]. split; [exists pto; apply py_int_print|]. split; [intros _; cbn [pd_start_s]; lia|]. discriminate. }
  destruct (Z.eqb_spec (periods c) 0) as [N0|N0].
  { apply bind_ok in H. destruct H as (q & _ & H). injection H as _ <-. constructor; [|constructor]. split; [exists 3600000; vm_compute; reflexivity|]. split; [intros _; cbn [pd_start_s]; lia|]. discriminate. }
  assert (P : 0 < periods c).
  { pose proof (counts c S) as I. unfold period_counts in I. cbn [In] in I. lia. }
  destruct (c_tsbd c) as [b|] eqn:B; [|discriminate]. apply bind_ok in H. destruct H as (l & L & H). injection H as _ <-.
  apply fill_timed; [exact P|]. apply Forall_rev. refine (loop_timed c now _ _ _ _ P _ _ L); [|constructor]. intros K. specialize (K b B).
  apply Forall_forall. intros z I. unfold zrange in I. apply in_map_iff in I. destruct I as (i & <- & _).
  assert (0 < 3600 / periods c).
  { pose proof (counts c S) as I. unfold period_counts in I. cbn [In] in I. repeat (destruct I as [I|I]; [rewrite <- I in *; first [lia|reflexivity]|]). destruct I. }
  assert (0 <= (now - b - c_seg_dur c) / (3600 / periods c)) by (apply Z.div_pos; lia). lia.
Qed.

(** The timeline of a period can be made *)
Definition fits (c : config) (now : Z) (p : pdata) (g : tgen) : Prop :=
  exists st en uc, segtimeline_window c now (pd_start_s p) (pd_period_duration_s p) = Ok (st, en, uc)
    /\ forall n, exists l m, create_segtimeline g st en uc n = Ok (Timeline l m).
Lemma whole_or_not : forall c, (exists stop, whole_session c stop) \/ (forall stop, ~ whole_session c stop).
Proof.
  intros c. unfold whole_session. destruct (c_stop_time c) as [s|]; [|right; intros ? (H & _); discriminate].
  destruct (Z.eq_dec s 0) as [->|N]; [right; intros ? (H & K & _); injection H as <-; apply K; reflexivity|].
  destruct (c_timeoffset c) as [t|]; [|right; intros ? (_ & _ & H); discriminate].
  destruct (Z.eq_dec t 0) as [->|M]; [left; exists s; auto|]. right. intros ? (_ & _ & H). injection H as H. contradiction.
Qed.
Lemma window_ok : forall c now p, (c_tsbd c <> None) -> timed c now p ->
  ((forall stop, ~ whole_session c stop) -> 0 < periods c -> forall b, c_tsbd c = Some b -> b + c_seg_dur c <= now) ->
  (forall stop, whole_session c stop -> exists s, c_start_time c = Some s /\ 0 <= s) ->
  exists st en uc, segtimeline_window c now (pd_start_s p) (pd_period_duration_s p) = Ok (st, en, uc) /\ 0 <= st /\
    ((exists stop, whole_session c stop /\ en = Z.min now stop) \/ ((forall stop, ~ whole_session c stop) /\
      (en = now - c_ast c \/ exists d, 0 < periods c /\ In d (period_lengths c) /\ d <= en))).
Proof.
  intros c now p B (_ & T2 & T3) P W. unfold segtimeline_window. destruct (c_tsbd c) as [b|] eqn:Eb; [|contradiction]. cbv zeta.
  set (st := Z.max (c_ast c + pd_start_s p) (now - b)). set (en := match pd_period_duration_s p with Some d => Z.min (c_ast c + pd_start_s p + d) now | None => now end).
  destruct (whole_or_not c) as [(stop & H)|H].
  - destruct (W stop H) as (s & Es & Hs). pose proof H as (H1 & H2 & H3). rewrite H1, H3, Es. destruct (Z.eqb_spec stop 0); [contradiction|].
    do 3 eexists. split; [reflexivity|]. split; [exact Hs|]. left. exists stop. auto.
  - assert (E : match c_stop_time c, c_timeoffset c with
      | Some stop, Some 0 => if stop =? 0 then Ok (st - c_ast c, en - c_ast c, false) else match c_start_time c with None => Err "TypeError"%string | Some s => Ok (s, Z.min now stop, true) end
      | _, _ => Ok (st - c_ast c, en - c_ast c, false) end = Ok (st - c_ast c, en - c_ast c, false)).
    { destruct (c_stop_time c) as [s|] eqn:E1; [|reflexivity]. destruct (c_timeoffset c) as [[| |]|] eqn:E2; try reflexivity.
      destruct (Z.eqb_spec s 0); [reflexivity|]. exfalso. apply (H s). repeat split; assumption. }
    assert (Q : 0 <= pd_start_s p) by (apply T2; intros P0; specialize (P H P0); intros b' Eb'; injection Eb' as <-; apply P; reflexivity).
    exists (st - c_ast c), (en - c_ast c), false. split; [exact E|]. split; [unfold st; lia|]. right. split; [exact H|].
    unfold en. destruct (pd_period_duration_s p) as [d|] eqn:D; [|left; reflexivity].
    destruct (T3 d eq_refl) as [P0 I]. destruct (Z.min_spec (c_ast c + pd_start_s p + d) now) as [[_ ->]|[_ ->]]; [|left; reflexivity].
    right. exists d. split; [exact P0|]. split; [exact I|]. lia.
Qed.
Lemma first_over_mono : forall g a b, gen_ok g -> first_over g a -> a <= b -> first_over g b /\ 0 <= b.
Proof.
  intros g a b G H L. unfold first_over in *. pose proof G as (_ & T & _). assert (M : a * tg_timescale g <= b * tg_timescale g) by (apply Z.mul_le_mono_nonneg_r; lia).
  split; [lia|]. pose proof (n_pos g G) as Hn. pose proof (entries g G 0 ltac:(lia)) as F. cbv zeta in F.
  assert (V : valid g 0 0) by (split; lia). pose proof (kpos_end g G 0 0 0 V) as E. unfold kpos in E.
  replace (0 * tg_per_wrap g + (e_nr (ent (tg_table g) 0) - tg_first g) + 0) with 0 in E by lia.
  destruct (Z.leb_spec 0 b) as [K|K]; [exact K|]. exfalso. assert (b * tg_timescale g < 0) by (apply Z.mul_neg_pos; lia). lia.
Qed.
Lemma fits_ok : forall c e src now p ct, c_tsbd c <> None -> listable c e src now -> timed c now p -> In ct ["video"; "audio"]%string ->
  forall g, make_generator c (me_tables e) ct = Ok g -> fits c now p g.
Proof.
  intros c e src now p ct B L T I g M. destruct (tracks _ _ _ _ L ct I) as (g' & TT & G & W & N).
  assert (g' = g). { destruct TT as (m & f & t & F & D & Tb & ->). unfold make_generator in M. rewrite F, D, Tb in M. injection M as <-. reflexivity. } subst g'.
  destruct (window_ok c now p B T (past _ _ _ _ L) (started _ _ _ _ L)) as (st & en & uc & E & Hst & Hen). exists st, en, uc. split; [exact E|]. intros n.
  assert (FO : first_over g en /\ 0 <= en).
  { destruct Hen as [(stop & H & ->)|(H & [->|(d & P0 & Id & Hd)])].
    - apply (first_over_mono g (Z.min now stop)); [exact G|exact (W stop H)|lia].
    - apply (first_over_mono g (now - c_ast c)); [exact G|exact (proj1 (N H))|lia].
    - apply (first_over_mono g d); [exact G|exact (proj2 (N H) P0 d Id)|exact Hd]. }
  apply create_total; try assumption; apply FO.
Qed.
Lemma generators_ok : forall c e src now, listable c e src now -> exists g, make_generators c (me_tables e) = Ok g.
Proof.
  intros c e src now L. assert (X : forall ct, In ct ["video"; "audio"]%string -> exists g, make_generator c (me_tables e) ct = Ok g).
  { intros ct I. destruct (tracks _ _ _ _ L ct I) as (g & (m & f & t & F & D & Tb & E) & _). unfold make_generator. rewrite F, D, Tb. eexists. reflexivity. }
  unfold make_generators. destruct (X "video"%string) as [v ->]; [left; reflexivity|]. destruct (X "audio"%string) as [a ->]; [right; left; reflexivity|]. eexists. reflexivity.
Qed.

(** The generators, when there are any, stay those of the content *)
Definition made (c : config) (tables : string -> result (list entry)) (tl : bool) (og : option gens) : Prop :=
  if tl then exists g, og = Some g /\ make_generator c tables "video" = Ok (g_video g) /\ make_generator c tables "audio" = Ok (g_audio g) else og = None.
Definition all_fit (c : config) (tables : string -> result (list entry)) (now : Z) (p : pdata) : Prop :=
  forall ct, In ct ["video"; "audio"]%string -> forall g, make_generator c tables ct = Ok g -> fits c now p g.
Lemma template_ok : forall e tables tl p ct og x, made (pe_cfg e) tables tl og ->
  (tl = true -> all_fit (pe_cfg e) tables (pe_now e) p /\ (exists z, pto_int (pd_pto p) = Ok z)
     /\ (ct = Some "video" \/ ct = Some "audio")%string /\ get "media" x <> None) ->
  exists og' y, update_template e p ct og x = Ok (og', y) /\ made (pe_cfg e) tables tl og'.
Proof.
  intros e tables tl p ct og x M H. unfold update_template. cbv zeta. destruct tl; [|cbn [made] in M; subst og; do 2 eexists; split; reflexivity].
  destruct M as (g & -> & Mv & Ma). destruct (H eq_refl) as (F & (z & Z) & CT & K).
  match goal with |- context [set "timescale" _ (del "duration" ?y)] => set (x4 := y) end.
  assert (K4 : get "media" x4 = get "media" x).
  { unfold x4. repeat match goal with |- context [if ?b then _ else _] => destruct b end; rewrite ?get_del_other, ?get_set_other, ?get_set_pto_other, ?get_set_other by discriminate; reflexivity. }
  clearbody x4. unfold update_template.
  assert (PG : exists gen n0, pick_generator g ct = Ok (gen, n0) /\ fits (pe_cfg e) (pe_now e) p gen).
  { destruct CT as [->| ->]; do 2 eexists; (split; [reflexivity|]).
    - apply (F "video"%string); [left; reflexivity|exact Mv].
    - apply (F "audio"%string); [right; left; reflexivity|exact Ma]. }
  destruct PG as (gen & n0 & -> & st & en & uc & W & C). cbn [bind]. rewrite W. cbn [bind fst snd]. destruct (C n0) as (l & m & ->). cbn [bind].
  match goal with |- context [bind ?q _] => assert (X : exists w, q = Ok w /\ get "media" w = get "media" x) end.
  { destruct (_ && _); [rewrite Z; cbn [bind]|]; eexists; (split; [reflexivity|]); rewrite ?get_set_other, ?get_del_other, ?get_set_other, ?get_del_other by discriminate; exact K4. }
  destruct X as (w & -> & Kw). cbn [bind]. rewrite Kw. destruct (get "media" x) as [md|]; [|contradiction].
  do 2 eexists. split; [reflexivity|]. unfold made, put_number. destruct CT as [->| ->]; cbn [String.eqb Ascii.eqb Bool.eqb]; eexists; (split; [reflexivity|]); split; assumption.
Qed.
Lemma tagged_ok : forall {S} (I : S -> Prop) t f l, (forall s x, I s -> In x l -> x_tag x = t -> exists s' y, f s x = Ok (s', y) /\ I s') ->
  forall s, I s -> exists s' r, @update_tagged S t f s l = Ok (s', r) /\ I s'.
Proof.
  intros S I t f l. induction l as [|x l IH]; intros H s Is; [do 2 eexists; split; [reflexivity|exact Is]|]. cbn [update_tagged].
  assert (H' : forall s x, I s -> In x l -> x_tag x = t -> exists s' y, f s x = Ok (s', y) /\ I s') by (intros s1 y I1 Iy; apply H; [exact I1|right; exact Iy]).
  destruct (is_tag t x) eqn:T.
  - destruct (H s x Is (or_introl eq_refl)) as (s1 & y & -> & I1); [apply String.eqb_eq; exact T|]. cbn [bind]. destruct (IH H' s1 I1) as (s2 & r & -> & I2). do 2 eexists. split; [reflexivity|exact I2].
  - destruct (IH H' s Is) as (s2 & r & -> & I2). do 2 eexists. split; [reflexivity|exact I2].
Qed.
Lemma insert_in : forall {A} n (y z : A) l, In z (insert_at n y l) -> z = y \/ In z l.
Proof.
  intros A n y z l H. unfold insert_at in H. apply in_app_or in H. destruct H as [H|[H|H]]; [right|left; congruence|right]; rewrite <- (firstn_skipn n l); apply in_or_app; auto.
Qed.
Lemma in_part : forall {A} n (z : A) l, In z (firstn n l) \/ In z (skipn n l) -> In z l.
Proof. intros A n z l H. rewrite <- (firstn_skipn n l). apply in_or_app. exact H. Qed.
Ltac part := match goal with H : In _ (firstn ?n _) |- _ => apply (in_part n); left; exact H | H : In _ (skipn ?n _) |- _ => apply (in_part n); right; exact H end.
Definition set_ready (s : xml) : Prop := forall t, In t (x_kids s) -> x_tag t = "SegmentTemplate"%string ->
  (get "contentType" s = Some "video" \/ get "contentType" s = Some "audio")%string /\ get "media" t <> None.
Lemma set_ok : forall e tables tl p i og x, made (pe_cfg e) tables tl og ->
  (tl = true -> all_fit (pe_cfg e) tables (pe_now e) p /\ (exists z, pto_int (pd_pto p) = Ok z) /\ set_ready x) ->
  exists og' y, update_adaptation_set e p i og x = Ok (og', y) /\ made (pe_cfg e) tables tl og'.
Proof.
  intros e tables tl p i og x M H. unfold update_adaptation_set. cbv zeta.
  match goal with |- context [update_tagged _ _ _ ?k] => set (kids := k) end.
  assert (K : forall t, In t kids -> x_tag t = "SegmentTemplate"%string -> In t (x_kids x)).
  { intros t I T. unfold kids in I. clear kids.
    repeat match goal with
    | I : In _ (if ?b then _ else _) |- _ => destruct b
    | I : In _ (insert_at _ _ _) |- _ => apply insert_in in I; destruct I as [->|I]; [discriminate T|]
    end; try exact I. }
  clearbody kids.
  destruct (tagged_ok (made (pe_cfg e) tables tl) "SegmentTemplate" (fun g x0 => update_template e p (get "contentType" x) g x0) kids) with (s := og) as (og' & r & -> & M'); [|exact M|].
  - intros s t Ms I T. apply template_ok; [exact Ms|]. intros Tl. destruct (H Tl) as (F & Z & R). destruct (R t (K t I T) T) as [R1 R2]. auto.
  - cbn [bind]. do 2 eexists. split; [reflexivity|exact M'].
Qed.
Definition period_ready (p : xml) : Prop := forall s, In s (x_kids p) -> x_tag s = "AdaptationSet"%string -> set_ready s.
Lemma kids_set_opt : forall k v x, x_kids (set_opt k v x) = x_kids x.
Proof. intros k [v|] [t a s l]; reflexivity. Qed.
Lemma period_ok : forall e tables tl p i og x, made (pe_cfg e) tables tl og -> (pd_callback p = true -> exists u, pe_callback_url e = Ok u) ->
  (tl = true -> all_fit (pe_cfg e) tables (pe_now e) p /\ (exists z, pto_int (pd_pto p) = Ok z) /\ period_ready x) ->
  exists og' y, update_period e p i og x = Ok (og', y) /\ made (pe_cfg e) tables tl og'.
Proof.
  intros e tables tl p i og x M C H. unfold update_period. cbv zeta.
  match goal with |- context [bind (if pd_callback p then ?a else Ok ?b)] => set (x1 := b) end.
  assert (K1 : forall s, In s (x_kids x1) -> x_tag s = "AdaptationSet"%string -> In s (x_kids x)).
  { assert (KS : forall key v y, x_kids (set key v y) = x_kids y) by (intros ? ? [? ? ? ?]; reflexivity).
    assert (KK : forall k y, x_kids (set_kids k y) = k) by (intros ? [? ? ? ?]; reflexivity).
    intros s I T. unfold x1 in I. destruct (_ && _).
    - rewrite KK in I. apply insert_in in I. destruct I as [->|I]; [discriminate T|]. rewrite kids_set_opt in I. destruct (pd_etp p); rewrite !KS in I; exact I.
    - rewrite kids_set_opt in I. destruct (pd_etp p); rewrite !KS in I; exact I. }
  match goal with |- context [bind ?q _] => assert (X : exists x2, q = Ok x2 /\ forall s, In s (x_kids x2) -> x_tag s = "AdaptationSet"%string -> In s (x_kids x)) end.
  { destruct (pd_callback p); [|eexists; split; [reflexivity|exact K1]]. destruct (C eq_refl) as [u ->]. cbn [bind]. eexists. split; [reflexivity|].
    intros s I T. destruct x1 as [t1 a1 s1 k1]. cbn [set_kids x_kids] in *. apply insert_in in I. destruct I as [->|I]; [discriminate T|]. exact (K1 s I T). }
  destruct X as (x2 & -> & K2). cbn [bind].
  destruct (tagged_ok (made (pe_cfg e) tables tl) "AdaptationSet" (fun g x0 => update_adaptation_set e p i g x0) (x_kids x2)) with (s := og) as (og' & r & -> & M'); [|exact M|].
  - intros s t Ms I T. apply set_ok; [exact Ms|]. intros Tl. destruct (H Tl) as (F & Z & R). split; [exact F|]. split; [exact Z|]. exact (R t (K2 t I T) T).
  - cbn [bind]. do 2 eexists. split; [reflexivity|exact M'].
Qed.
Lemma period_list_ok : forall c e tables tl l ps i og, callbacks_only c ps -> address_ready c (pe_callback_url e) -> made (pe_cfg e) tables tl og ->
  (tl = true -> Forall (fun p => all_fit (pe_cfg e) tables (pe_now e) p /\ (exists z, pto_int (pd_pto p) = Ok z)) ps
     /\ forall x, In x l -> x_tag x = "Period"%string -> period_ready x) ->
  exists r, update_period_list e ps i og l = Ok r.
Proof.
  intros c e tables tl l. induction l as [|x l IH]; intros ps i og C A M H; [eexists; reflexivity|]. cbn [update_period_list]. destruct (is_tag "Period" x) eqn:T.
  - destruct ps as [|p ps]; [eexists; reflexivity|]. inversion C as [|? ? C1 C2]; subst.
    destruct (period_ok e tables tl p i og x M) as (og' & y & -> & M'); [intros Q; exact (A (C1 Q))| |].
    { intros Tl. destruct (H Tl) as [F R]. inversion F as [|? ? (F1 & F2) F3]; subst. split; [exact F1|]. split; [exact F2|]. apply R; [left; reflexivity|apply String.eqb_eq; exact T]. }
    cbn [bind]. destruct (IH ps (pd_id p) og' C2 A M') as [r ->]; [|eexists; reflexivity].
    intros Tl. destruct (H Tl) as [F R]. inversion F; subst. split; [assumption|]. intros z I. apply R. right. exact I.
  - destruct (IH ps i og C A M) as [r ->]; [|eexists; reflexivity]. intros Tl. destruct (H Tl) as [F R]. split; [exact F|]. intros z I. apply R. right. exact I.
Qed.

Lemma find_tag_in : forall t l, (exists p, In p l /\ x_tag p = t) -> exists k, find_tag t l = Some k.
Proof.
  intros t l. induction l as [|x l IH]; intros (p & I & T); [destruct I|]. cbn [find_tag]. destruct (is_tag t x) eqn:E; [eexists; reflexivity|].
  destruct IH as [k ->].
  - destruct I as [->|I]; [|exists p; auto]. unfold is_tag in E. rewrite T, String.eqb_refl in E. discriminate.
  - eexists. reflexivity.
Qed.
(** The head of the children: [n] of them without a Period, with the address in a BaseURL *)
Definition period_after (n : nat) (l : list xml) : Prop := exists p, In p (skipn n l) /\ x_tag p = "Period"%string.
Definition base_in (u : string) (l : list xml) : Prop := exists b, List.find (is_tag "BaseURL") l = Some b /\ x_text b = u.
Lemma leading_only : forall t l, exists h r, l = (h ++ r)%list /\ List.length h = count_leading t l /\ Forall (fun x => x_tag x = t) h.
Proof.
  intros t l. induction l as [|x l (h & r & E & L & F)]; [exists [], []; repeat split; constructor|]. cbn [count_leading]. destruct (is_tag t x) eqn:T.
  - exists (x :: h), r. cbn [app List.length]. rewrite E, L. repeat split; [rewrite <- E; reflexivity|]. constructor; [apply String.eqb_eq; exact T|exact F].
  - exists [], (x :: l). repeat split. constructor.
Qed.
Lemma firstn_len : forall {A} (h r : list A) n, List.length h = n -> firstn n (h ++ r) = h.
Proof. intros A h r n <-. rewrite firstn_app, Nat.sub_diag, firstn_all. cbn. apply app_nil_r. Qed.
Lemma skipn_len : forall {A} (h r : list A) n, List.length h = n -> skipn n (h ++ r) = r.
Proof. intros A h r n <-. rewrite skipn_app, Nat.sub_diag, skipn_all. reflexivity. Qed.
Lemma find_skip : forall h r, Forall (fun x => x_tag x = "ProgramInformation"%string) h -> List.find (is_tag "BaseURL") (h ++ r) = List.find (is_tag "BaseURL") r.
Proof.
  intros h r F. induction F as [|x h T F IH]; [reflexivity|]. cbn [app List.find]. unfold is_tag at 1. rewrite T. exact IH.
Qed.
Lemma find_firstn : forall {A} (f : A -> bool) n l x, List.find f (firstn n l) = Some x -> List.find f l = Some x.
Proof.
  intros A f n l x. revert n. induction l as [|y l IH]; intros [|n] H; cbn [firstn List.find] in *; try discriminate. destruct (f y); [exact H|]. exact (IH n H).
Qed.
Lemma find_app_l : forall {A} (f : A -> bool) h r x, List.find f h = Some x -> List.find f (h ++ r)%list = Some x.
Proof. intros A f h r x. induction h as [|y h IH]; intros H; cbn [app List.find] in *; [discriminate|]. destruct (f y); [exact H|exact (IH H)]. Qed.

Lemma urls_ok : forall c e d kids, consistent c -> (exists p, In p kids /\ x_tag p = "Period"%string) ->
  exists kids' pos, insert_urls c e d kids = Ok (kids', pos) /\ (exists q, In q (skipn pos kids') /\ x_tag q = "Period"%string)
    /\ (has_callbacks c -> base_in (c_base_url c) (firstn pos kids')).
Proof.
  intros c e d kids S (p & I & T). unfold insert_urls. cbv zeta.
  destruct (leading_only "ProgramInformation" kids) as (h & r & E & L & F). set (n := count_leading "ProgramInformation" kids) in *. clearbody n. subst kids.
  assert (Ir : In p r).
  { apply in_app_or in I. destruct I as [I|I]; [|exact I]. rewrite Forall_forall in F. pose proof (F p I). congruence. }
  destruct r as [|x r]; [destruct Ir|]. assert (N : nth_error (h ++ x :: r) n = Some x) by (subst n; rewrite nth_error_app2, Nat.sub_diag by lia; reflexivity).
  rewrite N. assert (F1 : firstn n (h ++ x :: r) = h) by (apply firstn_len; exact L). assert (K1 : skipn n (h ++ x :: r) = x :: r) by (apply skipn_len; exact L).
  assert (K2 : skipn (Datatypes.S n) (h ++ x :: r) = r).
  { change (h ++ x :: r)%list with (h ++ ([x] ++ r))%list. rewrite app_assoc. apply skipn_len. rewrite app_length. cbn [List.length]. lia. }
  rewrite F1, K1, K2.
  destruct (c_add_loc c) eqn:AL.
  - assert (NC : has_callbacks c -> False) by (intros [H1 H2]; destruct (callbacks c S H1 H2) as (_ & X & _); congruence).
    destruct (relative c S AL) as [R1 R2]. unfold location_url. destruct (c_start_time c) as [a|]; [|contradiction]. destruct (c_stop_time c) as [b|]; [|contradiction].
    destruct (is_tag "BaseURL" x) eqn:B; cbn [bind].
    + do 2 eexists. split; [reflexivity|]. split; [|intros H; destruct (NC H)]. exists p. split; [|exact T]. unfold insert_at.
      rewrite (firstn_len h r n L), (skipn_len h r n L). match goal with |- In p (skipn (Datatypes.S n) (h ++ ?q :: r)) => change (h ++ q :: r)%list with (h ++ ([q] ++ r))%list end.
      rewrite app_assoc. rewrite skipn_len by (rewrite app_length; cbn [List.length]; lia). destruct Ir as [->|Ir]; [|exact Ir]. unfold is_tag in B. rewrite T in B. discriminate.
    + do 2 eexists. split; [reflexivity|]. split; [|intros H; destruct (NC H)]. exists p. split; [|exact T]. unfold insert_at. rewrite F1, K1.
      match goal with |- In p (skipn (Datatypes.S n) (h ++ ?q :: x :: r)) => change (h ++ q :: x :: r)%list with (h ++ ([q] ++ x :: r))%list end.
      rewrite app_assoc. rewrite skipn_len by (rewrite app_length; cbn [List.length]; lia). exact Ir.
  - destruct (is_tag "BaseURL" x) eqn:B; cbn [bind].
    + do 2 eexists. split; [reflexivity|]. set (y := Elem (x_tag x) (x_attrs x) (c_base_url c) (x_kids x)).
      assert (Ln : List.length (h ++ [y]) = Datatypes.S n) by (rewrite app_length; cbn [List.length]; lia).
      change (h ++ y :: r)%list with (h ++ ([y] ++ r))%list. rewrite app_assoc, skipn_len, firstn_len by exact Ln. split.
      * exists p. split; [|exact T]. destruct Ir as [->|Ir]; [|exact Ir]. unfold is_tag in B. rewrite T in B. discriminate.
      * intros _. exists y. split; [|reflexivity]. rewrite find_skip by exact F. cbn [List.find]. unfold is_tag, y. cbn [x_tag]. unfold is_tag in B. rewrite B. reflexivity.
    + assert (U : exists us, match c_multi_url c with [] => Ok [c_base_url c] | us => multi_base_urls (c_base_url c) us end = Ok us /\ (has_callbacks c -> us = [c_base_url c])).
      { destruct (c_multi_url c) as [|u us] eqn:MU; [eexists; split; [reflexivity|]; intros _; reflexivity|].
        destruct (several_urls c S) as (sc & bo & Sp); [rewrite MU; discriminate|]. unfold multi_base_urls. rewrite Sp. eexists. split; [reflexivity|].
        intros [H1 H2]. destruct (callbacks c S H1 H2) as (_ & _ & X & _). congruence. }
      destruct U as (us & -> & U). cbn [bind]. do 2 eexists. split; [reflexivity|].
      assert (Ln : List.length (h ++ map (baseurl_elem d) us) = (n + List.length us)%nat) by (rewrite app_length, map_length; lia).
      rewrite app_assoc, skipn_len, firstn_len by exact Ln. split; [exists p; split; [exact Ir|exact T]|].
      intros H. rewrite (U H). exists (baseurl_elem d (c_base_url c)). split; [|reflexivity]. rewrite find_skip by exact F. reflexivity.
Qed.

Lemma callback_ok : forall c l, consistent c -> has_callbacks c -> base_in (c_base_url c) l -> exists u, callback_url l = Ok u.
Proof.
  intros c l S [H1 H2] (b & F & X). unfold callback_url. rewrite F, X. destruct (callbacks c S H1 H2) as (_ & _ & _ & A).
  destruct A as (s & r & h & f & m & ->). eexists. reflexivity.
Qed.

(** The Periods are those of the source *)
Lemma ok_fst : forall {A B} (a a' : A) (b b' : B), Ok (a, b) = Ok (a', b') -> a = a'.
Proof. intros A B a a' b b' H. congruence. Qed.
Lemma urls_from : forall c e d kids kids' pos q, insert_urls c e d kids = Ok (kids', pos) -> In q kids' -> x_tag q = "Period"%string -> In q kids.
Proof.
  intros c e d kids kids' pos q H I T. unfold insert_urls in H. cbv zeta in H. destruct (nth_error kids _) as [x|] eqn:N; [|discriminate].
  apply bind_ok in H. destruct H as ((k1 & p1) & E & H).
  assert (I1 : In q k1).
  { destruct (c_add_loc c); [|injection H as <- _; exact I]. apply bind_ok in H. destruct H as (u & _ & H). injection H as <- _.
    apply insert_in in I. destruct I as [->|I]; [discriminate T|exact I]. }
  clear H I. destruct (is_tag "BaseURL" x) eqn:B.
  - destruct (c_add_loc c); apply ok_fst in E; subst k1; apply in_app_or in I1.
    + destruct I1 as [I1|I1]; part.
    + destruct I1 as [I1|[I1|I1]]; [part| |part]. exfalso. subst q. cbn [x_tag] in T. unfold is_tag in B. rewrite T in B. discriminate.
  - destruct (c_add_loc c); [apply ok_fst in E; subst k1; exact I1|]. apply bind_ok in E. destruct E as (us & _ & E). apply ok_fst in E; subst k1.
    apply in_app_or in I1. destruct I1 as [I1|I1]; [part|]. apply in_app_or in I1. destruct I1 as [I1|I1]; [|part].
    apply in_map_iff in I1. destruct I1 as (u & <- & _). discriminate T.
Qed.
Lemma utc_tags : forall w h l r q, utc_timings w h l = Ok r -> In q r -> x_tag q <> "Period"%string.
Proof.
  intros w h l. induction l as [|m l IH]; intros r q H I; cbn [utc_timings] in H; [injection H as <-; destruct I|].
  apply bind_ok in H. destruct H as (x & X & H). apply bind_ok in H. destruct H as (xs & Xs & H). injection H as <-.
  destruct I as [<-|I]; [|exact (IH xs q Xs I)]. unfold utc_timing in X.
  repeat match type of X with (if ?b then _ else _) = _ => destruct b end; try discriminate X; injection X as <-; discriminate.
Qed.
Definition ready (c : config) (e : menv) (src : xml) (now : Z) : Prop := by_number c \/ listable c e src now.

Lemma children_ok : forall c e now emsg d ps src, consistent c -> (exists p, In p (x_kids src) /\ x_tag p = "Period"%string) ->
  Forall (fun m => In m utc_methods) (md_utc d) -> callbacks_only c ps -> ready c e src now -> Forall (timed c now) ps ->
  exists r, process_mpd_children c e now emsg d ps (x_kids src) = Ok r.
Proof.
  intros c e now emsg d ps src S P U C R TM. unfold process_mpd_children. destruct (urls_ok c e d (x_kids src) S P) as (k1 & p1 & EU & Q1 & B1). rewrite EU. cbn [bind].
  assert (F1 : forall q, In q k1 -> x_tag q = "Period"%string -> In q (x_kids src)) by (intros q; apply (urls_from _ _ _ _ _ _ q EU)). clear EU.
  assert (X : exists k2 p2, (if md_lowlat d then (insert_at p1 service_description k1, Datatypes.S p1) else (k1, p1)) = (k2, p2)
     /\ (exists q, In q (skipn p2 k2) /\ x_tag q = "Period"%string) /\ (has_callbacks c -> base_in (c_base_url c) (firstn p2 k2))
     /\ (forall q, In q k2 -> x_tag q = "Period"%string -> In q (x_kids src))).
  { destruct (md_lowlat d); [|do 2 eexists; split; [reflexivity|]; split; [assumption|]; split; assumption]. do 2 eexists. split; [reflexivity|].
    rewrite <- and_assoc. split; [|intros q I T; apply insert_in in I; destruct I as [->|I]; [discriminate T|exact (F1 q I T)]]. unfold insert_at.
    assert (Lp : (p1 < List.length k1)%nat).
    { destruct Q1 as (q & I & _). destruct (Nat.lt_ge_cases p1 (List.length k1)) as [H|H]; [exact H|]. rewrite skipn_all2 in I by exact H. destruct I. }
    assert (Ln : List.length (firstn p1 k1 ++ [service_description]) = Datatypes.S p1) by (rewrite app_length, firstn_length; cbn [List.length]; lia).
    change (firstn p1 k1 ++ service_description :: skipn p1 k1)%list with (firstn p1 k1 ++ ([service_description] ++ skipn p1 k1))%list.
    rewrite app_assoc, skipn_len, firstn_len by exact Ln. split; [exact Q1|]. intros H. destruct (B1 H) as (b & Fb & Tb). exists b. split; [|exact Tb]. apply find_app_l. exact Fb. }
  destruct X as (k2 & p2 & -> & Q2 & B2 & F2). destruct (find_tag_in "Period" (skipn p2 k2) Q2) as (off & ->).
  assert (Lp : (p2 < List.length k2)%nat).
  { destruct Q2 as (q & I & _). destruct (Nat.lt_ge_cases p2 (List.length k2)) as [H|H]; [exact H|]. rewrite skipn_all2 in I by exact H. destruct I. }
  destruct (nth_error k2 p2) as [y|] eqn:N; [|apply nth_error_None in N; lia].
  destruct (utc_ok (me_wall e) (me_head_url e) (md_utc d) U) as (us & EUT). rewrite EUT. cbv zeta. cbn [bind].
  match goal with |- context [update_periods _ _ _ _ _ _ ?k] => set (k3 := k) end.
  assert (F3 : forall q, In q k3 -> x_tag q = "Period"%string -> In q (x_kids src)).
  { intros q I T. apply F2; [|exact T]. apply nth_error_In in N. unfold k3 in I. apply in_app_or in I. rewrite in_app_iff in I.
    assert (G : In q (firstn (Datatypes.S (p2 + off)) k2 ++ repeat y (List.length ps - 1) ++ skipn (Datatypes.S (p2 + off)) k2)%list -> In q k2).
    { intros J. apply in_app_or in J. destruct J as [J|J]; [part|]. apply in_app_or in J. destruct J as [J|J]; [|part].
      apply repeat_spec in J. subst q. exact N. }
    destruct I as [I|[I|I]]; [apply G; part| |apply G; part]. destruct (utc_tags _ _ _ _ _ EUT I T). }
  assert (AR : address_ready c (callback_url k3)); [|clearbody k3].
  2:{ unfold update_periods. set (tl := c_segtl c || c_segtlnr c).
    assert (GO : exists og, (if tl then let* g := make_generators c (me_tables e) in Ok (Some g) else Ok None) = Ok og /\ made c (me_tables e) tl og).
    { destruct tl eqn:TL; [|eexists; split; reflexivity]. destruct R as [[R1 R2]|R]; [unfold tl in TL; rewrite R1, R2 in TL; discriminate|].
      destruct (generators_ok c e src now R) as [g Eg]. rewrite Eg. cbn [bind]. eexists. split; [reflexivity|]. exists g. split; [reflexivity|].
      unfold make_generators in Eg. apply bind_ok in Eg. destruct Eg as (v & V & Eg). apply bind_ok in Eg. destruct Eg as (a & A & Eg). injection Eg as <-. split; assumption. }
    destruct GO as (og & -> & M). cbn [bind]. apply (period_list_ok c _ (me_tables e) tl); [exact C|exact AR|exact M|]. cbn [pe_cfg pe_now].
    intros TL. destruct R as [[R1 R2]|R]; [unfold tl in TL; rewrite R1, R2 in TL; discriminate|]. split.
    - eapply Forall_impl; [|exact TM]. intros p T. split; [|apply T]. intros ct I g Mg. exact (fits_ok c e src now p ct (buffer c S) R T I g Mg).
    - intros x I T s Is Ts t It Tt. exact (templates _ _ _ _ R x s t (F3 x I T) T Is Ts It Tt). }
  unfold k3. intros H.
  apply (callback_ok c); [exact S|exact H|]. destruct (B2 H) as (b & Fb & Tb). exists b. split; [|exact Tb].
  apply find_app_l. rewrite firstn_app, firstn_firstn. apply find_app_l.
  destruct ps as [|p ps].
  - cbn [List.length]. apply find_firstn with (n := p2). rewrite firstn_firstn. rewrite Nat.min_l by lia. exact Fb.
  - apply find_firstn with (n := p2). rewrite firstn_firstn. rewrite Nat.min_l by (cbn [List.length]; lia). exact Fb.
Qed.

Lemma manifest_ok : forall c e src emsg now, consistent c -> manifest_with_period src -> (uses_profiles c -> get "profiles" src <> None) ->
  ready c e src now -> exists x, generate_dynamic_mpd c e src emsg now = Ok x.
Proof.
  intros c e src emsg now S [T P] U R. unfold generate_dynamic_mpd.
  assert (D : exists d, mpd_data_of c now = Ok d /\ md_add_profile d = match c_chunkdur c with Some q => Qltb 0 q | None => false end
              /\ Forall (fun m => In m utc_methods) (md_utc d)).
  { unfold mpd_data_of. pose proof (buffer c S) as B. destruct (c_tsbd c) as [b|]; [|contradiction]. cbv zeta. eexists. split; [reflexivity|]. split; [reflexivity|]. cbn [md_utc].
    pose proof (clocks c S) as K. destruct (match c_chunkdur c with Some q => Qltb 0 q | None => false end); [|exact K]. destruct (c_utc c); [|exact K].
    constructor; [|constructor]. unfold utc_methods. cbn [In]. auto 10. }
  destruct D as (d & -> & A & K). cbn [bind].
  assert (N : exists n, adjusted_start_number c = Ok n).
  { unfold adjusted_start_number. repeat match goal with |- context [py_div _ (c_seg_dur c)] => rewrite div_ok by apply S; cbn [bind]
      | |- context [match ?o with Some _ => _ | None => _ end] => destruct o | |- context [if ?b then _ else _] => destruct b end; eexists; reflexivity. }
  destruct N as [n ->]. cbn [bind]. destruct (periods_ok c n (adjusted_pto c 0 1) now S) as (mup & ps & EP & C). pose proof (periods_timed _ _ _ _ _ _ S EP) as TM. rewrite EP. cbn [bind].
  destruct (root_ok c d (match mup with Some s => s | None => md_mup d end) now src T A U) as (root & -> & Kr). cbn [bind]. rewrite Kr.
  destruct (children_ok c e now emsg d ps src S P K C R TM) as (r & ->). eexists. reflexivity.
Qed.
Lemma loss_ok : forall gen now m d1 tot l em resp, (forall em', exists x, gen em' now = Ok x) ->
  (forall em' i, In i l -> i * tot + d1 < m -> exists x, gen em' (now - m + (i * tot + d1)) = Ok x) -> exists x, loss_loop gen em now m d1 tot l resp = Ok x.
Proof.
  intros gen now m d1 tot l. induction l as [|i l IH]; intros em resp G H; [eexists; reflexivity|]. cbn [loss_loop].
  assert (H' : forall em' i, In i l -> i * tot + d1 < m -> exists x, gen em' (now - m + (i * tot + d1)) = Ok x) by (intros em' j J; apply H; right; exact J).
  destruct (Z.ltb_spec (i * tot + d1) m) as [K|K]; cbn [andb].
  - destruct (m <=? (i + 1) * tot); [apply H; [left; reflexivity|exact K]|]. destruct (Z.eqb_spec m (i * tot + d1)); [lia|]. apply IH; assumption.
  - destruct (m =? i * tot + d1); [|apply IH; assumption]. destruct (G true) as [x ->]. cbn [bind]. apply IH; assumption.
Qed.
