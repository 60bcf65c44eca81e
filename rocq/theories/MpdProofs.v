(** Lemmas about the manifest processor. *)
From Coq Require Import ZifyBool ZifyNat Sorted Znumtheory.
From Verif Require Import Base BaseProofs ConfigModel ProxyModel Proxy2Theory TimeModel StrModel TimelineModel PeriodModel MpdModel MpdSpec.
Open Scope Z_scope.

(** *** Attributes *)
Lemma attr_set_same : forall k v l, attr k (attr_set k v l) = Some v.
Proof.
  intros k v l. induction l as [|(a, b) l IH]; cbn [attr_set attr].
  - rewrite String.eqb_refl. reflexivity.
  - destruct (String.eqb a k) eqn:E; cbn [attr]; rewrite E; auto.
Qed.
Lemma attr_set_other : forall k k' v l, k <> k' -> attr k (attr_set k' v l) = attr k l.
Proof.
  intros k k' v l N. induction l as [|(a, b) l IH]; cbn [attr_set attr].
  - destruct (String.eqb_spec k' k); [congruence|reflexivity].
  - destruct (String.eqb_spec a k'); cbn [attr].
    + subst a. destruct (String.eqb_spec k' k); [congruence|reflexivity].
    + rewrite IH. reflexivity.
Qed.
Lemma attr_del_same : forall k l, attr k (attr_del k l) = None.
Proof.
  intros k l. induction l as [|(a, b) l IH]; cbn [attr_del filter attr fst]; [reflexivity|].
  destruct (String.eqb a k) eqn:E; cbn [negb]; [exact IH|]. cbn [attr]. rewrite E. exact IH.
Qed.
Lemma attr_del_other : forall k k' l, k <> k' -> attr k (attr_del k' l) = attr k l.
Proof.
  intros k k' l N. induction l as [|(a, b) l IH]; cbn [attr_del filter attr fst]; [reflexivity|].
  destruct (String.eqb_spec a k'); cbn [negb attr].
  - subst a. destruct (String.eqb_spec k' k); [congruence|exact IH].
  - rewrite <- IH. reflexivity.
Qed.
Lemma get_set_same : forall k v x, get k (set k v x) = Some v.
Proof. intros k v [t a s l]. apply attr_set_same. Qed.
Lemma get_set_other : forall k k' v x, k <> k' -> get k (set k' v x) = get k x.
Proof. intros k k' v [t a s l] H. apply attr_set_other. exact H. Qed.
Lemma get_del_same : forall k x, get k (del k x) = None.
Proof. intros k [t a s l]. apply attr_del_same. Qed.
Lemma get_del_other : forall k k' x, k <> k' -> get k (del k' x) = get k x.
Proof. intros k k' [t a s l] H. apply attr_del_other. exact H. Qed.
Lemma get_set_kids : forall k l x, get k (set_kids l x) = get k x.
Proof. intros k l [t a s m]. reflexivity. Qed.
Lemma get_set_opt_other : forall k k' v x, k <> k' -> get k (set_opt k' v x) = get k x.
Proof. intros k k' [v|] x H; [apply get_set_other; exact H|reflexivity]. Qed.

(** Reads one attribute through a chain of updates of other attributes. *)
Ltac attr_other :=
  repeat first [rewrite get_set_other by discriminate | rewrite get_del_other by discriminate
               | rewrite get_set_opt_other by discriminate | rewrite get_set_kids].

Lemma bind_inv : forall {A B} (x : result A) (f : A -> result B) y, bind x f = Ok y -> exists a, x = Ok a /\ f a = Ok y.
Proof. intros A B [a|e] f y H; [eauto|discriminate]. Qed.

(** *** The root element *)
Section Root.
Variables (c : config) (d : mpd_data) (mup : string) (now : Z) (x y : xml).
Hypothesis R : process_mpd c d mup now x = Ok y.

(** The three profile steps change nothing but the profiles. *)
Lemma process_mpd_steps : exists x3, is_tag "MPD" x = true /\
  (forall k, k <> "profiles"%string -> get k x3 = get k (set "type" (if md_static d then "static" else "dynamic") x)) /\
  x_kids x3 = x_kids x /\
  y = (let x := set "availabilityStartTime" (md_ast d) x3 in
    let x := set_opt "availabilityEndTime" (md_aet d) x in
    let x := if md_static d || match md_mpdur d with Some _ => true | None => false end then x
             else set "timeShiftBufferDepth" (md_tsbd d) x in
    let x := if md_static d then x else set "minimumUpdatePeriod" mup x in
    let x := set "maxSegmentDuration" (md_maxseg d) x in
    let x := set_opt "mediaPresentationDuration" (md_mpdur d) x in
    let x := set_opt "suggestedPresentationDelay" (md_spd d) x in
    let x := match md_mpdur d with None => del "mediaPresentationDuration" x | Some _ => x end in
    let x := set "publishTime" (make_timestamp now) x in
    let x := set "id" "Config part of url maybe?" x in
    if c_segtl c || c_segtlnr c then
          let x := del "maxSegmentDuration" x in
          if md_static d then x else set "minimumUpdatePeriod" "PT0S" x
        else x)%string.
Proof.
  unfold process_mpd in R. destruct (is_tag "MPD" x); cbn [negb] in R; [|discriminate].
  set (x0 := set "type" _ x) in *.
  apply bind_inv in R. destruct R as (x1 & H1 & R1).
  apply bind_inv in R1. destruct R1 as (x2 & H2 & R2).
  apply bind_inv in R2. destruct R2 as (x3 & H3 & R3).
  exists x3. split; [reflexivity|].
  assert (S : forall p z, x_kids (set "profiles" p z) = x_kids z) by (intros p [? ? ? ?]; reflexivity).
  assert (S0 : x_kids x0 = x_kids x) by (unfold x0; destruct x; reflexivity).
  assert (A1 : x_kids x1 = x_kids x0 /\ forall k, k <> "profiles"%string -> get k x1 = get k x0).
  { destruct (0 <? c_scte35 c); [|injection H1 as <-; auto].
    destruct (get "profiles" x0); [|discriminate]. injection H1 as <-.
    destruct (contains _ _); [auto|]. rewrite S. split; [reflexivity|]. intros. apply get_set_other. assumption. }
  assert (A2 : x_kids x2 = x_kids x1 /\ forall k, k <> "profiles"%string -> get k x2 = get k x1).
  { destruct (c_stl_loss c); [|injection H2 as <-; auto].
    destruct (get "profiles" x1); [|discriminate]. injection H2 as <-.
    destruct (contains _ _); [|auto]. rewrite S. split; [reflexivity|]. intros. apply get_set_other. assumption. }
  assert (A3 : x_kids x3 = x_kids x2 /\ forall k, k <> "profiles"%string -> get k x3 = get k x2).
  { destruct (md_add_profile d); [|injection H3 as <-; auto].
    destruct (get "profiles" x2); [|discriminate]. injection H3 as <-.
    rewrite S. split; [reflexivity|]. intros. apply get_set_other. assumption. }
  destruct A1 as (B1 & C1), A2 as (B2 & C2), A3 as (B3 & C3).
  split; [|split; [congruence|]].
  - intros k N. rewrite C3, C2, C1 by assumption. reflexivity.
  - injection R3 as <-. reflexivity.
Qed.

Lemma process_mpd_kids : x_kids y = x_kids x.
Proof.
  destruct process_mpd_steps as (x3 & _ & _ & K & ->). rewrite <- K. clear K. cbv zeta.
  assert (S : forall k p z, x_kids (set k p z) = x_kids z) by (intros k p [? ? ? ?]; reflexivity).
  assert (D : forall k z, x_kids (del k z) = x_kids z) by (intros k [? ? ? ?]; reflexivity).
  assert (O : forall k p z, x_kids (set_opt k p z) = x_kids z) by (intros k [p|] z; [apply S|reflexivity]).
  destruct (c_segtl c || c_segtlnr c)%bool, (md_static d); destruct (md_mpdur d); cbn [orb]; repeat rewrite ?S, ?D, ?O; reflexivity.
Qed.
Lemma process_mpd_type : get "type" y = Some (if md_static d then "static" else "dynamic")%string.
Proof.
  destruct process_mpd_steps as (x3 & _ & K & _ & ->). cbv zeta.
  assert (E : get "type" x3 = Some (if md_static d then "static" else "dynamic")%string).
  { rewrite K by discriminate. apply get_set_same. }
  destruct (c_segtl c || c_segtlnr c)%bool, (md_static d); destruct (md_mpdur d); cbn [orb]; attr_other; exact E.
Qed.
Lemma process_mpd_mup : get "minimumUpdatePeriod" y =
  (if md_static d then get "minimumUpdatePeriod" x else Some (if c_segtl c || c_segtlnr c then "PT0S" else mup))%string.
Proof.
  destruct process_mpd_steps as (x3 & _ & K & _ & ->). cbv zeta.
  assert (E : get "minimumUpdatePeriod" x3 = get "minimumUpdatePeriod" x).
  { rewrite K by discriminate. apply get_set_other. discriminate. }
  destruct (c_segtl c || c_segtlnr c)%bool, (md_static d); destruct (md_mpdur d); cbn [orb]; attr_other;
    rewrite ?get_set_same; auto.
Qed.
Lemma process_mpd_times :
  get "availabilityStartTime" y = Some (md_ast d) /\ get "publishTime" y = Some (make_timestamp now) /\
  get "mediaPresentationDuration" y = md_mpdur d /\
  get "timeShiftBufferDepth" y =
    (if md_static d || match md_mpdur d with Some _ => true | None => false end then get "timeShiftBufferDepth" x else Some (md_tsbd d)) /\
  get "suggestedPresentationDelay" y = (match md_spd d with Some s => Some s | None => get "suggestedPresentationDelay" x end) /\
  get "availabilityEndTime" y = (match md_aet d with Some s => Some s | None => get "availabilityEndTime" x end).
Proof.
  destruct process_mpd_steps as (x3 & _ & K & _ & ->). cbv zeta.
  assert (E : forall k, k <> "profiles"%string -> k <> "type"%string -> get k x3 = get k x).
  { intros k N1 N2. rewrite K by assumption. apply get_set_other. assumption. }
  assert (E1 := E "timeShiftBufferDepth"%string ltac:(discriminate) ltac:(discriminate)).
  assert (E2 := E "suggestedPresentationDelay"%string ltac:(discriminate) ltac:(discriminate)).
  assert (E3 := E "availabilityEndTime"%string ltac:(discriminate) ltac:(discriminate)).
  repeat split;
  destruct (c_segtl c || c_segtlnr c)%bool, (md_static d); destruct (md_mpdur d); cbn [orb set_opt]; attr_other;
    rewrite ?get_set_same, ?get_del_same; auto;
    repeat match goal with
    | |- context [set_opt ?k (md_spd d)] => destruct (md_spd d); cbn [set_opt]; attr_other; rewrite ?get_set_same; auto
    | |- context [set_opt ?k (md_aet d)] => destruct (md_aet d); cbn [set_opt]; attr_other; rewrite ?get_set_same; auto
    end.
Qed.
End Root.

(** *** generate_dynamic_mpd *)
Lemma generate_inv : forall c e src em now x, generate_dynamic_mpd c e src em now = Ok x ->
  exists d sn mup ps root kids,
    mpd_data_of c now = Ok d /\ adjusted_start_number c = Ok sn /\
    generate_period_data c sn (adjusted_pto c 0 1) now = Ok (mup, ps) /\
    process_mpd c d (match mup with Some s => s | None => md_mup d end) now src = Ok root /\
    process_mpd_children c e now em d ps (x_kids src) = Ok kids /\
    x = set_kids kids root.
Proof.
  intros c e src em now x H. unfold generate_dynamic_mpd in H.
  apply bind_inv in H. destruct H as (d & H1 & H).
  apply bind_inv in H. destruct H as (sn & H2 & H).
  apply bind_inv in H. destruct H as ((mup, ps) & H3 & H).
  apply bind_inv in H. destruct H as (root & H4 & H).
  apply bind_inv in H. destruct H as (kids & H5 & H).
  injection H as <-. rewrite (process_mpd_kids _ _ _ _ _ _ H4) in H5.
  exists d, sn, mup, ps, root, kids. repeat (split; [assumption|]). reflexivity.
Qed.
Lemma mpd_data_static : forall c now d, mpd_data_of c now = Ok d -> (md_static d = true <-> ended c now).
Proof.
  intros c now d H. unfold mpd_data_of in H. destruct (c_tsbd c); [|discriminate].
  injection H as <-. cbn [md_static]. unfold ended. destruct (c_stop_time c) as [s|]; split; intros K.
  - exists s. split; [reflexivity|lia].
  - destruct K as (s' & E & K). injection E as <-. lia.
  - discriminate.
  - destruct K as (s' & E & K). discriminate.
Qed.

(** *** What generate_dynamic_mpd does not read *)
Lemma update_tagged_ext : forall {S} t (f f' : S -> xml -> result (S * xml)) l s,
  (forall s x, f s x = f' s x) -> update_tagged t f s l = update_tagged t f' s l.
Proof.
  intros S t f f' l. induction l as [|x l IH]; intros s H; cbn [update_tagged]; [reflexivity|].
  destruct (is_tag t x).
  - rewrite H. destruct (f' s x) as [(s1, x1)|]; cbn [bind]; [|reflexivity]. rewrite IH by exact H. reflexivity.
  - rewrite IH by exact H. reflexivity.
Qed.
Lemma update_period_list_ext : forall e e' l ps id g,
  (forall p id g x, update_period e p id g x = update_period e' p id g x) ->
  update_period_list e ps id g l = update_period_list e' ps id g l.
Proof.
  intros e e' l. induction l as [|x l IH]; intros ps id g H; cbn [update_period_list]; [reflexivity|].
  destruct (is_tag "Period" x).
  - destruct ps as [|p ps]; [reflexivity|]. rewrite H. destruct (update_period e' p id g x) as [(g1, x1)|]; cbn [bind]; [|reflexivity].
    rewrite IH by exact H. reflexivity.
  - rewrite IH by exact H. reflexivity.
Qed.
Lemma period_loop_ext : forall c c' n pd ad nrs acc, (forall nr, one_period c n pd nr = one_period c' n pd nr) ->
  period_loop c n pd ad nrs acc = period_loop c' n pd ad nrs acc.
Proof.
  intros c c' n pd ad nrs. induction nrs as [|nr nrs IH]; intros acc H; cbn [period_loop]; [reflexivity|].
  rewrite H. destruct (one_period c' n pd nr); cbn [bind]; [|reflexivity]. apply IH. exact H.
Qed.
Lemma update_period_publish : forall q c now em d cb p id g x,
  update_period (mk_penv (set_publish_time q c) now em d cb) p id g x = update_period (mk_penv c now em d cb) p id g x.
Proof.
  intros q c now em d cb p id g x. unfold update_period. cbn [pe_cfg pe_callback_url].
  change (at_period_level (set_publish_time q c)) with (at_period_level c).
  match goal with |- bind ?a _ = bind ?b _ => change a with b; destruct b as [y|]; cbn [bind]; [|reflexivity] end.
  rewrite (update_tagged_ext "AdaptationSet" _ (fun g x => update_adaptation_set (mk_penv c now em d cb) p id g x)); [reflexivity|].
  clear. intros g x. unfold update_adaptation_set. cbn [pe_cfg pe_emsg pe_data].
  change (c_scte35 (set_publish_time q c)) with (c_scte35 c).
  change (c_cont_mp (set_publish_time q c)) with (c_cont_mp c).
  match goal with |- bind (update_tagged _ _ g ?k) _ = _ => generalize k end. intros k.
  rewrite (update_tagged_ext "SegmentTemplate" _ (fun g y => update_template (mk_penv c now em d cb) p (get "contentType" x) g y)); [reflexivity|].
  reflexivity.
Qed.
Lemma period_data_publish : forall q c sn pto now, generate_period_data (set_publish_time q c) sn pto now = generate_period_data c sn pto now.
Proof.
  intros q c sn pto now. unfold generate_period_data.
  change (c_pph (set_publish_time q c)) with (c_pph c). change (c_insert_ad (set_publish_time q c)) with (c_insert_ad c).
  change (c_xlink (set_publish_time q c)) with (c_xlink c). change (c_seg_dur (set_publish_time q c)) with (c_seg_dur c).
  change (c_segtl (set_publish_time q c)) with (c_segtl c). change (c_segtlnr (set_publish_time q c)) with (c_segtlnr c).
  change (c_tsbd (set_publish_time q c)) with (c_tsbd c).
  destruct (negb _); [reflexivity|].
  destruct (if _ <? _ then _ else _); cbn [bind]; [|reflexivity].
  destruct (_ =? _); [reflexivity|]. destruct (_ =? _); [reflexivity|]. destruct (c_tsbd c); [|reflexivity].
  rewrite (period_loop_ext (set_publish_time q c) c); [reflexivity|]. reflexivity.
Qed.
Lemma generate_publish : forall q c e src em now,
  generate_dynamic_mpd (set_publish_time q c) e src em now = generate_dynamic_mpd c e src em now.
Proof.
  intros q c e src em now. unfold generate_dynamic_mpd.
  change (mpd_data_of (set_publish_time q c) now) with (mpd_data_of c now).
  change (adjusted_start_number (set_publish_time q c)) with (adjusted_start_number c).
  change (adjusted_pto (set_publish_time q c)) with (adjusted_pto c).
  destruct (mpd_data_of c now) as [d|]; cbn [bind]; [|reflexivity].
  destruct (adjusted_start_number c); cbn [bind]; [|reflexivity]. rewrite period_data_publish.
  destruct (generate_period_data _ _ _ _) as [(mup, ps)|]; cbn [bind]; [|reflexivity].
  change (process_mpd (set_publish_time q c)) with (process_mpd c).
  destruct (process_mpd _ _ _ _ _) as [root|]; cbn [bind]; [|reflexivity].
  assert (E : process_mpd_children (set_publish_time q c) e now em d ps (x_kids root) = process_mpd_children c e now em d ps (x_kids root));
    [|rewrite E; reflexivity].
  unfold process_mpd_children. change (insert_urls (set_publish_time q c)) with (insert_urls c).
  destruct (insert_urls _ _ _ _) as [(kids, pos)|]; cbn [bind]; [|reflexivity].
  destruct (if md_lowlat d then _ else _) as (kids1, pos1).
  destruct (find_tag _ _); [|reflexivity]. destruct (nth_error _ _); [|reflexivity].
  destruct (utc_timings _ _ _); cbn [bind]; [|reflexivity].
  unfold update_periods. change (c_segtl (set_publish_time q c)) with (c_segtl c). change (c_segtlnr (set_publish_time q c)) with (c_segtlnr c).
  change (make_generators (set_publish_time q c)) with (make_generators c).
  match goal with |- bind ?a _ = bind ?b _ => change a with b; destruct b as [g|]; cbn [bind]; [|reflexivity] end.
  apply update_period_list_ext. intros. apply update_period_publish.
Qed.

Definition with_wall (w : string) (e : menv) : menv := mk_menv (me_full_url e) (me_head_url e) w (me_tables e).
Lemma utc_wall : forall w w' h l, ~ In "direct"%string l -> utc_timings w h l = utc_timings w' h l.
Proof.
  intros w w' h l. induction l as [|m l IH]; intros N; cbn [utc_timings]; [reflexivity|].
  rewrite IH by (intros K; apply N; right; exact K).
  unfold utc_timing. destruct (String.eqb_spec m "direct"); [exfalso; apply N; left; auto|reflexivity].
Qed.
Lemma generate_wall : forall c w e src em now, ~ In "direct"%string (c_utc c) ->
  generate_dynamic_mpd c (with_wall w e) src em now = generate_dynamic_mpd c e src em now.
Proof.
  intros c w e src em now N. unfold generate_dynamic_mpd.
  destruct (mpd_data_of c now) as [d|] eqn:D; cbn [bind]; [|reflexivity].
  assert (U : ~ In "direct"%string (md_utc d)).
  { unfold mpd_data_of in D. destruct (c_tsbd c); [|discriminate]. injection D as <-. cbn [md_utc].
    destruct (match c_chunkdur c with Some q => Qltb 0 q | None => false end); [|exact N].
    destruct (c_utc c); [|exact N]. intros [K|[]]. discriminate. }
  destruct (adjusted_start_number c); cbn [bind]; [|reflexivity].
  destruct (generate_period_data _ _ _ _) as [(mup, ps)|]; cbn [bind]; [|reflexivity].
  destruct (process_mpd _ _ _ _ _) as [root|]; cbn [bind]; [|reflexivity].
  unfold process_mpd_children, insert_urls, with_wall. cbn [me_full_url me_head_url me_wall me_tables].
  rewrite (utc_wall w (me_wall e) (me_head_url e) (md_utc d) U). reflexivity.
Qed.

(** *** The loss loop *)
(** segtimelineloss with a first baseurl_uX_dY. *)
Definition sched (c : config) (X Y : Z) : Prop :=
  c_stl_loss c = true /\ (exists u r, c_multi_url c = u :: r /\ parse_updown u = Ok (("u"%char, X), ("d"%char, Y))) /\
  0 <= X /\ 0 <= Y /\ 0 < X + Y.

Lemma loss_loop_ext : forall gen gen' em now m X T is resp, (forall b t, gen b t = gen' b t) ->
  loss_loop gen em now m X T is resp = loss_loop gen' em now m X T is resp.
Proof.
  intros gen gen' em now m X T is. revert em. induction is as [|i is IH]; intros em resp H; cbn [loss_loop]; [reflexivity|].
  destruct (_ && _); [apply H|]. destruct (_ =? _); [|apply IH; exact H].
  rewrite H. destruct (gen' true now); cbn [bind]; [|reflexivity]. apply IH. exact H.
Qed.
Lemma get_mpd_publish : forall q c e src now, get_mpd (set_publish_time q c) e src now = get_mpd c e src now.
Proof.
  intros q c e src now. unfold get_mpd.
  change (mpd_option_checks (set_publish_time q c)) with (mpd_option_checks c).
  change (c_emsg_last (set_publish_time q c)) with (c_emsg_last c). change (c_multi_url (set_publish_time q c)) with (c_multi_url c).
  change (c_stl_loss (set_publish_time q c)) with (c_stl_loss c).
  destruct (mpd_option_checks c); cbn [bind]; [|reflexivity].
  rewrite generate_publish. destruct (generate_dynamic_mpd _ _ _ _ _); cbn [bind]; [|reflexivity].
  destruct (c_multi_url c) as [|u r]; [reflexivity|]. destruct (c_stl_loss c); [|reflexivity].
  destruct (parse_updown u) as [((q1, X), (q2, Y))|]; cbn [bind]; [|reflexivity].
  destruct (_ =? _); [reflexivity|]. destruct (_ && _); [|reflexivity].
  apply loss_loop_ext. intros. apply generate_publish.
Qed.

Lemma loss_down : forall gen now X Y m is em resp,
  0 <= X -> 0 <= Y -> 0 < X + Y -> ud_is_down X Y m ->
  In ((m - 1) / (X + Y)) is -> StronglySorted Z.lt is ->
  loss_loop gen em now m X (X + Y) is resp = gen em (now - m + last_up_second X Y m).
Proof.
  intros gen now X Y m is. induction is as [|i is IH]; intros em resp HX HY HT (M1 & M2) HI HN; [destruct HI|].
  cbn [loss_loop]. assert (D := div_mod_interval (X + Y) m X HT M1 M2 HX).
  destruct ((i * (X + Y) + X <? m) && (m <=? (i + 1) * (X + Y))) eqn:E.
  - assert (i = (m - 1) / (X + Y)); [|subst i; reflexivity].
    assert (E1 : i * (X + Y) + X < m) by lia. assert (E2 : m <= (i + 1) * (X + Y)) by lia.
    apply Z.div_unique with (r := m - 1 - i * (X + Y)); lia.
  - destruct HI as [HI|HI]; [subst i; lia|].
    inversion HN as [|? ? HN1 HN2]; subst. rewrite Forall_forall in HN2. specialize (HN2 _ HI).
    destruct (Z.eqb_spec m (i * (X + Y) + X)) as [K|K].
    + exfalso. assert ((i + 1) * (X + Y) <= (m - 1) / (X + Y) * (X + Y)) by nia. lia.
    + apply IH; auto. split; assumption.
Qed.
Lemma loss_up : forall gen now X Y m is em resp,
  0 <= X -> 0 <= Y -> 0 < X + Y -> 0 <= m -> ~ ud_is_down X Y m ->
  (forall i, In i is -> 0 <= i) -> (forall i, In i is -> m <> i * (X + Y) + X) ->
  loss_loop gen em now m X (X + Y) is resp = Ok resp.
Proof.
  intros gen now X Y m is. induction is as [|i is IH]; intros em resp HX HY HT Hm HU HI HN; [reflexivity|].
  cbn [loss_loop].
  destruct ((i * (X + Y) + X <? m) && (m <=? (i + 1) * (X + Y))) eqn:E.
  - exfalso. apply HU. assert (0 <= i) by (apply HI; left; auto).
    assert (E1 : i * (X + Y) + X < m) by lia. assert (E2 : m <= (i + 1) * (X + Y)) by lia.
    assert (0 <= i * (X + Y)) by nia. split; [lia|].
    rewrite <- (Z.mod_unique_pos (m - 1) (X + Y) i (m - 1 - i * (X + Y))); lia.
  - destruct (Z.eqb_spec m (i * (X + Y) + X)); [exfalso; apply (HN i); [left|]; auto|].
    apply IH; auto; intros j Hj; [apply HI|apply HN]; right; exact Hj.
Qed.
Lemma loss_last : forall gen now X Y m is em resp,
  0 <= X -> 0 <= Y -> 0 < X + Y -> 0 <= m -> ~ ud_is_down X Y m ->
  (forall i, In i is -> 0 <= i) -> StronglySorted Z.lt is ->
  (exists i, In i is /\ m = i * (X + Y) + X) ->
  loss_loop gen em now m X (X + Y) is resp = gen true now.
Proof.
  intros gen now X Y m is. induction is as [|i is IH]; intros em resp HX HY HT Hm HU HI HN HE.
  { destruct HE as (i & [] & _). }
  cbn [loss_loop].
  destruct ((i * (X + Y) + X <? m) && (m <=? (i + 1) * (X + Y))) eqn:E.
  - exfalso. apply HU. assert (0 <= i) by (apply HI; left; auto).
    assert (E1 : i * (X + Y) + X < m) by lia. assert (E2 : m <= (i + 1) * (X + Y)) by lia.
    assert (0 <= i * (X + Y)) by nia. split; [lia|].
    rewrite <- (Z.mod_unique_pos (m - 1) (X + Y) i (m - 1 - i * (X + Y))); lia.
  - inversion HN as [|? ? HN1 HN2]; subst. rewrite Forall_forall in HN2.
    destruct (Z.eqb_spec m (i * (X + Y) + X)) as [K|K].
    + destruct (gen true now) as [r|]; cbn [bind]; [|reflexivity].
      apply loss_up; auto.
      * intros j Hj. apply HI. right. exact Hj.
      * intros j Hj. specialize (HN2 j Hj). nia.
    + apply IH; auto.
      * intros j Hj. apply HI. right. exact Hj.
      * destruct HE as (j & [-> | Hj] & Ej); [contradiction|eauto].
Qed.

(** The moment for which get_mpd generates the manifest. *)
Lemma get_mpd_sched : forall c e src now x X Y, sched c X Y -> get_mpd c e src now = Ok x ->
  let m := now mod 60 in
  let gen := generate_dynamic_mpd c e src in
  (ud_is_down X Y m -> gen (c_emsg_last c) (now - m + last_up_second X Y m) = Ok x) /\
  (~ ud_is_down X Y m -> X <= m -> (X + Y | m - X) -> gen true now = Ok x) /\
  (~ ud_is_down X Y m -> ~ (X <= m /\ (X + Y | m - X)) -> gen (c_emsg_last c) now = Ok x).
Proof.
  intros c e src now x X Y (L & (u & r & U & P) & HX & HY & HT) H m gen. unfold get_mpd in H.
  apply bind_inv in H. destruct H as (_ & _ & H). apply bind_inv in H. destruct H as (y & G & H).
  rewrite U, L, P in H. cbn [bind] in H. destruct (Z.eqb_spec (X + Y) 0); [lia|].
  change (Ascii.eqb "u" "u" && Ascii.eqb "d" "d") with true in H. cbv iota in H.
  fold gen in H, G. fold m in H.
  assert (Hm : 0 <= m < 60) by (apply Z.mod_pos_bound; lia).
  assert (N := nr_loops_bound (X + Y)).
  assert (Pos : forall i, In i (ProxyModel.zrange (nr_updown_loops (X + Y))) -> 0 <= i) by (intros i Hi; apply in_zrange in Hi; lia).
  split; [|split].
  - intros D. assert (I : In ((m - 1) / (X + Y)) (ProxyModel.zrange (nr_updown_loops (X + Y)))).
    { apply in_zrange. destruct D as (D1 & _). specialize (N (m - 1) HT ltac:(lia)). split; [apply Z.div_pos; lia|exact N]. }
    rewrite (loss_down gen now X Y m _ _ _ HX HY HT D I (zrange_sorted _)) in H. exact H.
  - intros D L1 (i & L2).
    assert (I : exists i, In i (ProxyModel.zrange (nr_updown_loops (X + Y))) /\ m = i * (X + Y) + X).
    { exists i. split; [|lia]. apply in_zrange. assert (0 <= i) by nia. split; [assumption|].
      assert (i <= m / (X + Y)) by (apply Z.div_le_lower_bound; lia). specialize (N m HT Hm). lia. }
    rewrite (loss_last gen now X Y m _ _ _ HX HY HT (proj1 Hm) D Pos (zrange_sorted _) I) in H. exact H.
  - intros D NL. rewrite (loss_up gen now X Y m _ _ _ HX HY HT (proj1 Hm) D Pos) in H; [congruence|].
    intros i Hi K. apply NL. apply Pos in Hi. split; [nia|]. exists i. lia.
Qed.
Lemma get_mpd_plain : forall c e src now x, c_stl_loss c = false \/ c_multi_url c = [] ->
  get_mpd c e src now = Ok x -> generate_dynamic_mpd c e src (c_emsg_last c) now = Ok x.
Proof.
  intros c e src now x L H. unfold get_mpd in H.
  apply bind_inv in H. destruct H as (_ & _ & H). apply bind_inv in H. destruct H as (y & G & H).
  destruct L as [L|L]; [|rewrite L in H; congruence].
  destruct (c_multi_url c); [congruence|]. rewrite L in H. congruence.
Qed.

(** *** Tags *)
Lemma tag_set : forall k v x, x_tag (set k v x) = x_tag x. Proof. intros k v []; reflexivity. Qed.
Lemma tag_del : forall k x, x_tag (del k x) = x_tag x. Proof. intros k []; reflexivity. Qed.
Lemma tag_set_opt : forall k v x, x_tag (set_opt k v x) = x_tag x. Proof. intros k [] []; reflexivity. Qed.
Lemma tag_set_kids : forall l x, x_tag (set_kids l x) = x_tag x. Proof. intros l []; reflexivity. Qed.
Lemma tag_set_pto : forall p x, x_tag (set_pto p x) = x_tag x.
Proof. intros p x. unfold set_pto. destruct (String.eqb _ _); [reflexivity|apply tag_set]. Qed.
Ltac tags := repeat first [rewrite tag_set | rewrite tag_del | rewrite tag_set_opt | rewrite tag_set_kids | rewrite tag_set_pto].
Lemma is_tag_iff : forall t x, is_tag t x = true <-> x_tag x = t.
Proof. intros t x. unfold is_tag. apply String.eqb_eq. Qed.

Lemma template_tag : forall e p ct g x g' x', update_template e p ct g x = Ok (g', x') -> x_tag x' = x_tag x.
Proof.
  intros e p ct g x g' x' H. unfold update_template in H.
  match type of H with context [del "startNumber" ?z] => remember (if String.eqb (pd_start_number p) "-1" then del "startNumber" z else z) as y eqn:Y;
    assert (T : x_tag y = x_tag x) end.
  { rewrite Y. clear. destruct (String.eqb _ _), (md_lowlat _), (_ && _)%bool; tags; reflexivity. }
  clear Y. destruct g as [g|]; [|injection H as _ <-; exact T].
  apply bind_inv in H. destruct H as ((gen, nr0) & _ & H).
  apply bind_inv in H. destruct H as ((w, uc) & _ & H).
  apply bind_inv in H. destruct H as (tl & _ & H).
  apply bind_inv in H. destruct H as (z & Z & H).
  assert (T2 : x_tag z = x_tag x).
  { destruct (_ && _)%bool; [apply bind_inv in Z; destruct Z as (i & _ & Z)|]; injection Z as <-; tags; exact T. }
  destruct (get "media" z); [|discriminate]. destruct tl; [discriminate|].
  injection H as _ <-. tags. destruct (c_segtl _); tags; exact T2.
Qed.

Lemma update_tagged_filter : forall {S} t (f : S -> xml -> result (S * xml)) (P : xml -> bool) l s s' l',
  (forall s x s' x', f s x = Ok (s', x') -> x_tag x' = x_tag x) -> (forall y, x_tag y = t -> P y = true) ->
  update_tagged t f s l = Ok (s', l') -> update_tagged t f s (filter P l) = Ok (s', filter P l').
Proof.
  intros S t f P l. induction l as [|x l IH]; intros s s' l' F Q H; cbn [update_tagged] in H.
  - injection H as <- <-. reflexivity.
  - destruct (is_tag t x) eqn:E.
    + apply bind_inv in H. destruct H as ((s1, x1) & H1 & H). apply bind_inv in H. destruct H as ((s2, r2) & H2 & H).
      injection H as <- <-. assert (T := proj1 (is_tag_iff _ _) E). assert (T1 := F _ _ _ _ H1).
      cbn [filter]. rewrite (Q x T), (Q x1 ltac:(congruence)). cbn [update_tagged]. rewrite E, H1. cbn [bind].
      rewrite (IH _ _ _ F Q H2). reflexivity.
    + apply bind_inv in H. destruct H as ((s2, r2) & H2 & H). injection H as <- <-.
      cbn [filter]. destruct (P x); [|apply IH; assumption]. cbn [update_tagged]. rewrite E.
      rewrite (IH _ _ _ F Q H2). reflexivity.
Qed.

Definition with_emsg (b : bool) (e : penv) : penv := mk_penv (pe_cfg e) (pe_now e) b (pe_data e) (pe_callback_url e).
Notation no_ev := (fun y => negb (event_stream y)).
Lemma adaptation_events : forall e em1 em2 p id g x g1 y1 g2 y2,
  update_adaptation_set (with_emsg em1 e) p id g x = Ok (g1, y1) ->
  update_adaptation_set (with_emsg em2 e) p id g x = Ok (g2, y2) ->
  g1 = g2 /\ x_tag y1 = x_tag x /\ x_tag y2 = x_tag x /\ x_attrs y1 = x_attrs y2 /\ x_text y1 = x_text y2 /\
  filter no_ev (x_kids y1) = filter no_ev (x_kids y2).
Proof.
  intros e em1 em2 p id g x g1 y1 g2 y2 H1 H2. unfold update_adaptation_set in *.
  apply bind_inv in H1. destruct H1 as ((h1, k1) & H1 & E1). injection E1 as <- <-.
  apply bind_inv in H2. destruct H2 as ((h2, k2) & H2 & E2). injection E2 as <- <-.
  unfold with_emsg in H1, H2. cbn [pe_emsg pe_cfg pe_data] in H1, H2.
  apply (update_tagged_filter _ _ no_ev) in H1;
    [|intros * ?; eapply template_tag; eassumption|intros y T; unfold event_stream; rewrite T; reflexivity].
  apply (update_tagged_filter _ _ no_ev) in H2;
    [|intros * ?; eapply template_tag; eassumption|intros y T; unfold event_stream; rewrite T; reflexivity].
  set (sc := match get "contentType" x with Some s => (s =? "video")%string && (0 <? c_scte35 (pe_cfg e)) | None => false end) in *.
  set (ct := (c_cont_mp (pe_cfg e) && negb (id =? "-1")%string)%bool) in *.
  match type of H1 with update_tagged _ _ _ ?k = _ => match type of H2 with update_tagged _ _ _ ?k' = _ => assert (K : k = k') end end.
  { clear. destruct em1, em2, sc, ct, (md_lowlat (pe_data e)); reflexivity. }
  rewrite <- K in H2.
  match type of H1 with update_tagged ?t ?f ?s ?l = ?r => change (update_tagged t f s l = Ok (h2, filter no_ev k2)) in H2 end.
  rewrite H1 in H2. injection H2 as <- E. destruct x; cbn. tauto.
Qed.
Lemma update_tagged_rel : forall {S} t (f1 f2 : S -> xml -> result (S * xml)) (N : xml -> xml) l s s1 l1 s2 l2,
  (forall s x s1 y1 s2 y2, x_tag x = t -> f1 s x = Ok (s1, y1) -> f2 s x = Ok (s2, y2) ->
     s1 = s2 /\ x_tag y1 = t /\ x_tag y2 = t /\ N y1 = N y2) ->
  update_tagged t f1 s l = Ok (s1, l1) -> update_tagged t f2 s l = Ok (s2, l2) ->
  s1 = s2 /\ map (fun y => if String.eqb (x_tag y) t then N y else y) l1 = map (fun y => if String.eqb (x_tag y) t then N y else y) l2.
Proof.
  intros S t f1 f2 N l. induction l as [|x l IH]; intros s s1 l1 s2 l2 F H1 H2; cbn [update_tagged] in H1, H2.
  - injection H1 as <- <-. injection H2 as <- <-. auto.
  - destruct (is_tag t x) eqn:E.
    + apply bind_inv in H1. destruct H1 as ((a1, x1) & A1 & H1). apply bind_inv in H1. destruct H1 as ((b1, r1) & B1 & H1). injection H1 as <- <-.
      apply bind_inv in H2. destruct H2 as ((a2, x2) & A2 & H2). apply bind_inv in H2. destruct H2 as ((b2, r2) & B2 & H2). injection H2 as <- <-.
      destruct (F _ _ _ _ _ _ (proj1 (is_tag_iff _ _) E) A1 A2) as (<- & T1 & T2 & NN).
      destruct (IH _ _ _ _ _ F B1 B2) as (<- & M). split; [reflexivity|].
      cbn [map]. rewrite T1, T2, String.eqb_refl, NN, M. reflexivity.
    + apply bind_inv in H1. destruct H1 as ((b1, r1) & B1 & H1). injection H1 as <- <-.
      apply bind_inv in H2. destruct H2 as ((b2, r2) & B2 & H2). injection H2 as <- <-.
      destruct (IH _ _ _ _ _ F B1 B2) as (<- & M). split; [reflexivity|]. cbn [map]. rewrite M. reflexivity.
Qed.
Notation strip_as := (fun a => Elem (x_tag a) (x_attrs a) (x_text a) (filter no_ev (x_kids a))).
Lemma period_events : forall e em1 em2 p id g x g1 y1 g2 y2,
  update_period (with_emsg em1 e) p id g x = Ok (g1, y1) -> update_period (with_emsg em2 e) p id g x = Ok (g2, y2) ->
  g1 = g2 /\ x_tag y1 = x_tag x /\ x_tag y2 = x_tag x /\ map_tag "AdaptationSet" strip_as y1 = map_tag "AdaptationSet" strip_as y2.
Proof.
  intros e em1 em2 p id g x g1 y1 g2 y2 H1 H2. unfold update_period in *.
  change (pe_cfg (with_emsg em1 e)) with (pe_cfg e) in H1. change (pe_cfg (with_emsg em2 e)) with (pe_cfg e) in H2.
  change (pe_callback_url (with_emsg em1 e)) with (pe_callback_url e) in H1. change (pe_callback_url (with_emsg em2 e)) with (pe_callback_url e) in H2.
  apply bind_inv in H1. destruct H1 as (z1 & Z1 & H1). apply bind_inv in H2. destruct H2 as (z2 & Z2 & H2).
  assert (z1 = z2) by congruence. subst z2. clear Z2.
  assert (T : x_tag z1 = x_tag x).
  { destruct (pd_callback p); [apply bind_inv in Z1; destruct Z1 as (u & _ & Z1)|]; injection Z1 as <-;
      destruct (_ && _)%bool; tags; destruct (pd_etp p); tags; reflexivity. }
  clear Z1.
  apply bind_inv in H1. destruct H1 as ((h1, k1) & H1 & E1). injection E1 as <- <-.
  apply bind_inv in H2. destruct H2 as ((h2, k2) & H2 & E2). injection E2 as <- <-.
  assert (F : forall s a s1 a1 s2 a2, x_tag a = "AdaptationSet"%string ->
     update_adaptation_set (with_emsg em1 e) p id s a = Ok (s1, a1) -> update_adaptation_set (with_emsg em2 e) p id s a = Ok (s2, a2) ->
     s1 = s2 /\ x_tag a1 = "AdaptationSet"%string /\ x_tag a2 = "AdaptationSet"%string /\ strip_as a1 = strip_as a2).
  { intros s a s1 a1 s2 a2 TA F1 F2. destruct (adaptation_events _ _ _ _ _ _ _ _ _ _ _ F1 F2) as (-> & T1 & T2 & A & B & C).
    do 3 (split; [congruence|]). cbv beta. rewrite A, B, C, T1, T2. reflexivity. }
  destruct (update_tagged_rel "AdaptationSet" _ _ strip_as _ _ _ _ _ _ F H1 H2) as (-> & M).
  split; [reflexivity|]. tags. do 2 (split; [exact T|]). destruct z1; unfold map_tag; cbn. rewrite M. reflexivity.
Qed.
Lemma period_list_events : forall e em1 em2 l ps id g l1 l2,
  update_period_list (with_emsg em1 e) ps id g l = Ok l1 -> update_period_list (with_emsg em2 e) ps id g l = Ok l2 ->
  let h := fun y => if String.eqb (x_tag y) "Period" then map_tag "AdaptationSet" strip_as y else y in
  map h l1 = map h l2.
Proof.
  intros e em1 em2 l. induction l as [|x l IH]; intros ps id g l1 l2 H1 H2 h; cbn [update_period_list] in *.
  - injection H1 as <-. injection H2 as <-. reflexivity.
  - destruct (is_tag "Period" x) eqn:E.
    + destruct ps as [|p ps]; [congruence|].
      apply bind_inv in H1. destruct H1 as ((a1, x1) & A1 & H1). apply bind_inv in H1. destruct H1 as (r1 & B1 & H1). injection H1 as <-.
      apply bind_inv in H2. destruct H2 as ((a2, x2) & A2 & H2). apply bind_inv in H2. destruct H2 as (r2 & B2 & H2). injection H2 as <-.
      destruct (period_events _ _ _ _ _ _ _ _ _ _ _ A1 A2) as (<- & T1 & T2 & M).
      cbn [map]. pose proof (IH _ _ _ _ _ B1 B2) as I. cbv zeta in I. fold h in I. rewrite I. f_equal. unfold h. apply is_tag_iff in E. rewrite T1, T2, E. exact M.
    + apply bind_inv in H1. destruct H1 as (r1 & B1 & H1). injection H1 as <-.
      apply bind_inv in H2. destruct H2 as (r2 & B2 & H2). injection H2 as <-.
      cbn [map]. pose proof (IH _ _ _ _ _ B1 B2) as I. cbv zeta in I. fold h in I. rewrite I. reflexivity.
Qed.
Lemma generate_events : forall c e src em1 em2 now x1 x2,
  generate_dynamic_mpd c e src em1 now = Ok x1 -> generate_dynamic_mpd c e src em2 now = Ok x2 ->
  without_events x1 = without_events x2.
Proof.
  intros c e src em1 em2 now x1 x2 H1 H2.
  destruct (generate_inv _ _ _ _ _ _ H1) as (d & sn & mup & ps & root & k1 & D & S & G & R & K1 & ->).
  destruct (generate_inv _ _ _ _ _ _ H2) as (d' & sn' & mup' & ps' & root' & k2 & D' & S' & G' & R' & K2 & ->).
  assert (d' = d) by congruence. assert (sn' = sn) by congruence. subst d' sn'.
  assert (EE : (mup', ps') = (mup, ps)) by congruence. injection EE as -> ->. assert (root' = root) by congruence. subst root'.
  unfold process_mpd_children in K1, K2.
  destruct (insert_urls _ _ _ _) as [(kids, pos)|]; cbn [bind] in K1, K2; [|discriminate].
  destruct (if md_lowlat d then _ else _) as (kids1, pos1).
  destruct (find_tag _ _); [|discriminate]. destruct (nth_error _ _); [|discriminate].
  destruct (utc_timings _ _ _); cbn [bind] in K1, K2; [|discriminate].
  unfold update_periods in K1, K2.
  destruct (if _ || _ then _ else _) as [g|]; cbn [bind] in K1, K2; [|discriminate].
  match type of K1 with update_period_list (mk_penv _ _ _ _ ?u) _ _ _ _ = _ => pose proof (period_list_events (mk_penv c now true d u) em1 em2 _ _ _ _ _ _ K1 K2) as M end.
  unfold without_events. destruct root. unfold map_tag at 1 3. cbn. cbv zeta in M. rewrite M. reflexivity.
Qed.

(** The moment for which the manifest is generated. *)
Definition eff (c : config) (now : Z) : Z :=
  match c_multi_url c with
  | u :: _ =>
      if c_stl_loss c then
        match parse_updown u with
        | Ok ((a, X), (b, Y)) =>
            if Ascii.eqb a "u" && Ascii.eqb b "d" && (1 <=? now mod 60) && (X <=? (now mod 60 - 1) mod (X + Y))
            then now - now mod 60 + last_up_second X Y (now mod 60) else now
        | Err _ => now
        end
      else now
  | [] => now
  end.
Definition sane (c : config) : Prop := forall u r X Y, c_multi_url c = u :: r ->
  parse_updown u = Ok (("u"%char, X), ("d"%char, Y)) -> 0 <= X /\ 0 <= Y.

Lemma get_mpd_eff : forall c e src now x, sane c -> get_mpd c e src now = Ok x ->
  exists em, generate_dynamic_mpd c e src em (eff c now) = Ok x.
Proof.
  intros c e src now x Sn H. unfold eff.
  destruct (c_multi_url c) as [|u r] eqn:U; [eexists; eapply get_mpd_plain; eauto|].
  destruct (c_stl_loss c) eqn:L; [|eexists; eapply get_mpd_plain; eauto].
  destruct (parse_updown u) as [((a, X), (b, Y))|] eqn:P.
  - destruct (Ascii.eqb a "u" && Ascii.eqb b "d") eqn:E; cbn [andb].
    + apply andb_prop in E. destruct E as (Ea & Eb). apply Ascii.eqb_eq in Ea, Eb. subst a b.
      destruct (Sn u r X Y U P) as (HX & HY).
      destruct (Z.eqb_spec (X + Y) 0) as [T|T].
      { exfalso. unfold get_mpd in H. apply bind_inv in H. destruct H as (_ & _ & H). apply bind_inv in H. destruct H as (y & _ & H).
        rewrite U, L, P in H. cbn [bind] in H. rewrite T in H. discriminate. }
      assert (S : sched c X Y) by (repeat split; [exact L|exists u, r; auto|lia|lia|lia]).
      destruct (get_mpd_sched _ _ _ _ _ _ _ S H) as (D1 & D2 & D3). cbv zeta in D1, D2, D3. unfold ud_is_down in *.
      destruct (Z.leb_spec 1 (now mod 60)); cbn [andb].
      * destruct (Z.leb_spec X ((now mod 60 - 1) mod (X + Y))); [eexists; apply D1; lia|].
        destruct (Z_le_dec X (now mod 60)) as [G|G]; [|eexists; apply D3; lia].
        destruct (Zdivide_dec (X + Y) (now mod 60 - X)); eexists; [apply D2|apply D3]; try lia; tauto.
      * destruct (Z_le_dec X (now mod 60)) as [G|G]; [|eexists; apply D3; lia].
        destruct (Zdivide_dec (X + Y) (now mod 60 - X)); eexists; [apply D2|apply D3]; try lia; tauto.
    + exists (c_emsg_last c). unfold get_mpd in H. apply bind_inv in H. destruct H as (_ & _ & H). apply bind_inv in H. destruct H as (y & G & H).
      rewrite U, L, P in H. cbn [bind] in H. destruct (X + Y =? 0); [discriminate|]. rewrite E in H. congruence.
  - exfalso. unfold get_mpd in H. apply bind_inv in H. destruct H as (_ & _ & H). apply bind_inv in H. destruct H as (y & _ & H).
    rewrite U, L, P in H. discriminate.
Qed.
Lemma eff_le : forall c now, sane c -> eff c now <= now.
Proof.
  intros c now Sn. unfold eff. destruct (c_multi_url c) as [|u r] eqn:U; [lia|]. destruct (c_stl_loss c); [|lia].
  destruct (parse_updown u) as [((a, X), (b, Y))|] eqn:P; [|lia].
  destruct (Ascii.eqb a "u" && Ascii.eqb b "d") eqn:E; cbn [andb]; [|lia].
  apply andb_prop in E. destruct E as (Ea & Eb). apply Ascii.eqb_eq in Ea, Eb. subst a b.
  destruct (Sn u r X Y U P) as (HX & HY).
  destruct (Z.leb_spec 1 (now mod 60)); cbn [andb]; [|lia].
  destruct (Z.leb_spec X ((now mod 60 - 1) mod (X + Y))); [|lia].
  unfold last_up_second. set (m := now mod 60) in *.
  destruct (Z.eq_dec (X + Y) 0) as [T|T]; [rewrite T; rewrite Z.mul_0_r; lia|].
  assert (Q := Z.div_mod (m - 1) (X + Y) T). nia.
Qed.
Lemma eff_mono : forall c n1 n2, sane c -> n1 <= n2 -> eff c n1 <= eff c n2.
Proof.
  intros c n1 n2 Sn H. pose proof (eff_le c n1 Sn) as L1.
  unfold eff at 2. destruct (c_multi_url c) as [|u r] eqn:U; [lia|]. destruct (c_stl_loss c) eqn:L; [|lia].
  destruct (parse_updown u) as [((a, X), (b, Y))|] eqn:P; [|lia].
  destruct (Ascii.eqb a "u" && Ascii.eqb b "d") eqn:E; cbn [andb]; [|lia].
  assert (EE := E). apply andb_prop in EE. destruct EE as (Ea & Eb). apply Ascii.eqb_eq in Ea, Eb. subst a b.
  destruct (Sn u r X Y U P) as (HX & HY).
  assert (M1 := Z.mod_pos_bound n1 60 ltac:(lia)). assert (M2 := Z.mod_pos_bound n2 60 ltac:(lia)).
  assert (Q1 := Z.div_mod n1 60 ltac:(lia)). assert (Q2 := Z.div_mod n2 60 ltac:(lia)).
  unfold eff in L1 |- *. rewrite U, L, P in *. rewrite E in *. cbn [andb] in *.
  set (m1 := n1 mod 60) in *. set (m2 := n2 mod 60) in *.
  destruct (Z.leb_spec 1 m2) as [A2|A2]; cbn [andb]; [|lia].
  destruct (Z.leb_spec X ((m2 - 1) mod (X + Y))) as [B2|B2]; [|lia].
  set (t1 := if (1 <=? m1) && (X <=? (m1 - 1) mod (X + Y)) then n1 - m1 + last_up_second X Y m1 else n1) in *.
  destruct (Z.eq_dec (X + Y) 0) as [T|T].
  { assert (X = 0) by lia. assert (Y = 0) by lia. subst X Y. unfold last_up_second in *. cbn [Z.add] in *. rewrite Z.mul_0_r.
    subst t1. rewrite Z.mul_0_r in *. change (0 + 0) with 0 in *. rewrite !Zmod_0_r in *.
    destruct (Z.leb_spec 1 m1); cbn [andb]; destruct (Z.leb_spec 0 (m1 - 1)); lia. }
  assert (K2 := Z.div_mod (m2 - 1) (X + Y) T). assert (R2 := Z.mod_pos_bound (m2 - 1) (X + Y) ltac:(lia)).
  assert (0 <= (m2 - 1) / (X + Y)) by (apply Z.div_pos; lia).
  assert (LU : 0 <= last_up_second X Y m2) by (unfold last_up_second; nia).
  destruct (Z_lt_dec (n1 / 60) (n2 / 60)); [lia|].
  assert (n1 / 60 = n2 / 60) by (assert (n1 / 60 <= n2 / 60) by (apply Z.div_le_mono; lia); lia).
  destruct (Z_le_dec m1 (last_up_second X Y m2)) as [C|C]; [lia|].
  unfold last_up_second in C.
  assert (D : (m2 - 1) / (X + Y) = (m1 - 1) / (X + Y)).
  { apply Z.div_unique with (r := m1 - 1 - (m2 - 1) / (X + Y) * (X + Y)); lia. }
  assert (K1 := Z.div_mod (m1 - 1) (X + Y) T).
  subst t1. destruct (Z.leb_spec 1 m1); cbn [andb]; [|lia].
  destruct (Z.leb_spec X ((m1 - 1) mod (X + Y))); [|nia].
  unfold last_up_second. rewrite <- D. lia.
Qed.

(** *** The children of the root *)
Notation tagged t := (filter (fun y => String.eqb (x_tag y) t)).
Lemma update_tagged_other : forall {S} t t' (f : S -> xml -> result (S * xml)) l s s' l',
  (forall s x s' x', f s x = Ok (s', x') -> x_tag x' = x_tag x) -> t' <> t ->
  update_tagged t f s l = Ok (s', l') -> tagged t' l' = tagged t' l.
Proof.
  intros S t t' f l. induction l as [|x l IH]; intros s s' l' F N H; cbn [update_tagged] in H.
  - injection H as <- <-. reflexivity.
  - destruct (is_tag t x) eqn:E.
    + apply bind_inv in H. destruct H as ((s1, x1) & H1 & H). apply bind_inv in H. destruct H as ((s2, r2) & H2 & H).
      injection H as <- <-. apply is_tag_iff in E. cbn [filter]. rewrite (F _ _ _ _ H1), E.
      destruct (String.eqb_spec t t'); [congruence|]. eapply IH; eassumption.
    + apply bind_inv in H. destruct H as ((s2, r2) & H2 & H). injection H as <- <-. cbn [filter].
      rewrite (IH _ _ _ F N H2). reflexivity.
Qed.
Lemma update_tagged_same : forall {S} t (f : S -> xml -> result (S * xml)) l s s' l',
  (forall s x s' x', f s x = Ok (s', x') -> x_tag x' = x_tag x) ->
  update_tagged t f s l = Ok (s', l') ->
  Forall2 (fun x y => exists s s', f s x = Ok (s', y)) (tagged t l) (tagged t l').
Proof.
  intros S t f l. induction l as [|x l IH]; intros s s' l' F H; cbn [update_tagged] in H.
  - injection H as <- <-. constructor.
  - destruct (is_tag t x) eqn:E.
    + apply bind_inv in H. destruct H as ((s1, x1) & H1 & H). apply bind_inv in H. destruct H as ((s2, r2) & H2 & H).
      injection H as <- <-. apply is_tag_iff in E. cbn [filter]. rewrite (F _ _ _ _ H1), E, String.eqb_refl.
      constructor; [eauto|]. eapply IH; eassumption.
    + apply bind_inv in H. destruct H as ((s2, r2) & H2 & H). injection H as <- <-. cbn [filter].
      unfold is_tag in E. rewrite E. eapply IH; eassumption.
Qed.
Lemma adaptation_tag : forall e p id g x g' x', update_adaptation_set e p id g x = Ok (g', x') -> x_tag x' = x_tag x.
Proof.
  intros e p id g x g' x' H. unfold update_adaptation_set in H. apply bind_inv in H. destruct H as ((h, k) & _ & H).
  injection H as _ <-. apply tag_set_kids.
Qed.
Lemma period_tag : forall e p id g x g' x', update_period e p id g x = Ok (g', x') -> x_tag x' = x_tag x.
Proof.
  intros e p id g x g' x' H. unfold update_period in H.
  apply bind_inv in H. destruct H as (z & Z & H). apply bind_inv in H. destruct H as ((h, k) & _ & H). injection H as _ <-. tags.
  destruct (pd_callback p); [apply bind_inv in Z; destruct Z as (u & _ & Z)|]; injection Z as <-;
      destruct (_ && _)%bool; tags; destruct (pd_etp p); tags; reflexivity.
Qed.

Notation none t := (Forall (fun y => x_tag y <> t)).
Lemma find_tag_app : forall t l x r, x_tag x = t -> find_tag t (l ++ x :: r) <> None.
Proof.
  intros t l x r T. induction l as [|y l IH]; cbn [app find_tag].
  - apply is_tag_iff in T. rewrite T. discriminate.
  - destruct (is_tag t y); [discriminate|]. destruct (find_tag t (l ++ x :: r)); [discriminate|contradiction].
Qed.
Lemma update_list_prefix : forall e l ps id g r y, none "Period"%string l -> update_period_list e ps id g (l ++ r) = Ok y ->
  exists r', update_period_list e ps id g r = Ok r' /\ y = (l ++ r')%list.
Proof.
  intros e l. induction l as [|x l IH]; intros ps id g r y N H; cbn [app] in *; [eauto|].
  inversion N as [|? ? N1 N2]; subst. cbn [update_period_list] in H.
  destruct (is_tag "Period" x) eqn:E; [apply is_tag_iff in E; contradiction|].
  apply bind_inv in H. destruct H as (r1 & H1 & H). injection H as <-.
  destruct (IH _ _ _ _ _ N2 H1) as (r' & R & ->). eauto.
Qed.
Lemma update_list_none : forall e l ps id g, none "Period"%string l -> update_period_list e ps id g l = Ok l.
Proof.
  intros e l. induction l as [|x l IH]; intros ps id g N; cbn [update_period_list]; [reflexivity|].
  inversion N as [|? ? N1 N2]; subst.
  destruct (is_tag "Period" x) eqn:E; [apply is_tag_iff in E; contradiction|]. rewrite IH by exact N2. reflexivity.
Qed.
Lemma update_tagged_state : forall {S} t (f : S -> xml -> result (S * xml)) (I : S -> Prop) l s s' l',
  (forall s x s' x', I s -> f s x = Ok (s', x') -> I s') -> I s -> update_tagged t f s l = Ok (s', l') -> I s'.
Proof.
  intros S t f I l. induction l as [|x l IH]; intros s s' l' F Is H; cbn [update_tagged] in H.
  - injection H as <- <-. exact Is.
  - destruct (is_tag t x).
    + apply bind_inv in H. destruct H as ((s1, x1) & H1 & H). apply bind_inv in H. destruct H as ((s2, r2) & H2 & H).
      injection H as <- <-. eapply IH; [exact F| |exact H2]. eapply F; eassumption.
    + apply bind_inv in H. destruct H as ((s2, r2) & H2 & H). injection H as <- <-. eapply IH; eassumption.
Qed.
(** No generators in number mode, generators in timeline mode. *)
(** The tables of the two generators never change; only their numbers do. *)
Definition tracks (g : option gens) : option (tgen * tgen) := option_map (fun h => (g_video h, g_audio h)) g.
Lemma template_state : forall e p ct g x g' x', update_template e p ct g x = Ok (g', x') -> tracks g' = tracks g.
Proof.
  intros e p ct g y g' y' H. unfold update_template in H. destruct g as [gs|].
  - apply bind_inv in H. destruct H as ((gen, nr0) & _ & H).
    apply bind_inv in H. destruct H as ((w, uc) & _ & H).
    apply bind_inv in H. destruct H as (tl & _ & H).
    apply bind_inv in H. destruct H as (z & Z & H).
    destruct (get "media" z); [|discriminate]. destruct tl; [discriminate|]. injection H as <- _.
    unfold put_number. destruct ct as [q|]; [destruct (String.eqb q "video")|]; reflexivity.
  - injection H as <- _. reflexivity.
Qed.
Lemma adaptation_state : forall e p id g x g' x', update_adaptation_set e p id g x = Ok (g', x') -> tracks g' = tracks g.
Proof.
  intros e p id g x g' x' H. unfold update_adaptation_set in H. apply bind_inv in H. destruct H as ((h, k) & K & H).
  injection H as <- _. revert K. apply (update_tagged_state _ _ (fun h => tracks h = tracks g)); [|reflexivity].
  clear. intros s y s' y' I H. rewrite (template_state _ _ _ _ _ _ _ H). exact I.
Qed.
Lemma period_state : forall e p id g x g' x', update_period e p id g x = Ok (g', x') -> tracks g' = tracks g.
Proof.
  intros e p id g x g' x' H. unfold update_period in H.
  apply bind_inv in H. destruct H as (z & Z & H). apply bind_inv in H. destruct H as ((h, k) & K & H). injection H as <- _.
  revert K. apply (update_tagged_state _ _ (fun h => tracks h = tracks g)); [|reflexivity].
  clear. intros s x s' x' I H. rewrite (adaptation_state _ _ _ _ _ _ _ H). exact I.
Qed.
Lemma Forall2_impl : forall {A B} (P Q : A -> B -> Prop) l l', (forall a b, P a b -> Q a b) -> Forall2 P l l' -> Forall2 Q l l'.
Proof. intros A B P Q l l' H F. induction F; constructor; auto. Qed.
Lemma update_list_periods : forall e period r ps id g y, x_tag period = "Period"%string -> none "Period"%string r ->
  update_period_list e ps id g (repeat period (List.length ps) ++ r) = Ok y ->
  exists Ps, y = (Ps ++ r)%list /\
    Forall2 (fun p P => exists id g1 g', update_period e p id g1 period = Ok (g', P) /\ tracks g1 = tracks g) ps Ps.
Proof.
  intros e period r ps. induction ps as [|p ps IH]; intros id g y T N H; cbn [List.length repeat app] in H.
  - rewrite update_list_none in H by exact N. injection H as <-. exists []. split; [reflexivity|constructor].
  - cbn [update_period_list] in H. apply is_tag_iff in T. rewrite T in H. apply is_tag_iff in T.
    apply bind_inv in H. destruct H as ((g1, x1) & H1 & H). apply bind_inv in H. destruct H as (r1 & H2 & H). injection H as <-.
    destruct (IH _ _ _ T N H2) as (Ps & -> & F). exists (x1 :: Ps). split; [reflexivity|].
    constructor; [exists id, g, g1; split; [exact H1|reflexivity]|].
    eapply Forall2_impl; [|exact F]. cbv beta. intros a b (id' & g2 & g' & A & B). exists id', g2, g'. split; [exact A|].
    rewrite <- (period_state _ _ _ _ _ _ _ H1). exact B.
Qed.

Definition url_elems (c : config) (e : menv) (d : mpd_data) : result (list xml) :=
  if c_add_loc c then let* u := location_url c (me_full_url e) in Ok [Elem "Location" [] u []]
  else let* urls := match c_multi_url c with [] => Ok [c_base_url c] | us => multi_base_urls (c_base_url c) us end in
       Ok (map (baseurl_elem d) urls).
Lemma firstn_app_exact : forall {A} (l r : list A), firstn (List.length l) (l ++ r) = l.
Proof. intros A l r. rewrite firstn_app, Nat.sub_diag, firstn_all, firstn_O, app_nil_r. reflexivity. Qed.
Lemma skipn_app_exact : forall {A} (l r : list A), skipn (List.length l) (l ++ r) = r.
Proof. intros A l r. rewrite skipn_app, Nat.sub_diag, skipn_all. reflexivity. Qed.
Lemma insert_at_app : forall {A} (x : A) l r, insert_at (List.length l) x (l ++ r) = (l ++ x :: r)%list.
Proof. intros A x l r. unfold insert_at. rewrite firstn_app_exact, skipn_app_exact. reflexivity. Qed.

Lemma insert_urls_shape : forall c e d progs period rest kids pos,
  Forall (fun y => x_tag y = "ProgramInformation"%string) progs -> x_tag period = "Period"%string ->
  insert_urls c e d (progs ++ period :: rest) = Ok (kids, pos) ->
  exists urls, url_elems c e d = Ok urls /\ kids = (progs ++ urls ++ period :: rest)%list /\ pos = List.length (progs ++ urls).
Proof.
  intros c e d progs period rest kids pos FP TP H.
  assert (CL : count_leading "ProgramInformation" (progs ++ period :: rest) = List.length progs).
  { clear H. induction progs as [|y l IH]; cbn [app count_leading].
    - destruct (is_tag "ProgramInformation" period) eqn:E; [apply is_tag_iff in E; congruence|reflexivity].
    - inversion FP as [|? ? F1 F2]; subst. apply is_tag_iff in F1. rewrite F1, IH by exact F2. reflexivity. }
  unfold insert_urls in H. rewrite CL in H.
  rewrite nth_error_app2, Nat.sub_diag in H by lia. cbn [nth_error] in H.
  assert (B : is_tag "BaseURL" period = false) by (destruct (is_tag "BaseURL" period) eqn:E; [apply is_tag_iff in E; congruence|reflexivity]).
  rewrite B in H. unfold url_elems. destruct (c_add_loc c) eqn:L; cbn [bind] in H.
  - apply bind_inv in H. destruct H as (u & U & H). injection H as <- <-. rewrite U. cbn [bind].
    eexists. split; [reflexivity|]. rewrite insert_at_app, app_length. cbn [List.length app]. split; [reflexivity|lia].
  - apply bind_inv in H. destruct H as ((k1, p1) & H1 & H). injection H as <- <-.
    apply bind_inv in H1. destruct H1 as (us & U & H1). rewrite U. cbn [bind]. injection H1 as <- <-.
    eexists. split; [reflexivity|]. rewrite firstn_app_exact, skipn_app_exact, app_length, map_length. auto.
Qed.
Lemma url_elems_tags : forall c e d urls, url_elems c e d = Ok urls -> none "Period"%string urls.
Proof.
  intros c e d urls H. unfold url_elems in H. destruct (c_add_loc c).
  - apply bind_inv in H. destruct H as (u & _ & H). injection H as <-. repeat constructor. discriminate.
  - apply bind_inv in H. destruct H as (us & _ & H). injection H as <-. apply Forall_forall. intros y I.
    apply in_map_iff in I. destruct I as (u & <- & _). discriminate.
Qed.
Lemma utc_tags : forall w h l us, utc_timings w h l = Ok us -> Forall (fun y => x_tag y = "UTCTiming"%string) us.
Proof.
  intros w h l. induction l as [|m l IH]; intros us H; cbn [utc_timings] in H; [injection H as <-; constructor|].
  apply bind_inv in H. destruct H as (x & X & H). apply bind_inv in H. destruct H as (r & R & H). injection H as <-.
  constructor; [|apply IH; exact R]. unfold utc_timing in X.
  repeat match type of X with (if ?b then _ else _) = _ => destruct b end; try discriminate X; injection X as <-; reflexivity.
Qed.

(** The generators of a manifest: none for number addressing, else those of
    the two tables. *)
Definition tracks_from (c : config) (tables : string -> result (list entry)) (g : option gens) : Prop :=
  ((c_segtl c || c_segtlnr c)%bool = false /\ g = None) \/
  exists h, (c_segtl c || c_segtlnr c)%bool = true /\ g = Some h /\
    make_generator c tables "video" = Ok (g_video h) /\ make_generator c tables "audio" = Ok (g_audio h).

(** Children of the generated root, for a source with program information, one
    Period and other elements after it. *)
Lemma children_shape : forall c e now em d ps progs period rest kids,
  Forall (fun y => x_tag y = "ProgramInformation"%string) progs -> x_tag period = "Period"%string -> none "Period"%string rest ->
  ps <> [] -> process_mpd_children c e now em d ps (progs ++ period :: rest) = Ok kids ->
  exists urls utcs Ps cb,
    url_elems c e d = Ok urls /\ utc_timings (me_wall e) (me_head_url e) (md_utc d) = Ok utcs /\
    kids = (progs ++ urls ++ (if md_lowlat d then [service_description] else []) ++ Ps ++ utcs ++ rest)%list /\
    Forall2 (fun p P => exists id g g', update_period (mk_penv c now em d cb) p id g period = Ok (g', P) /\
                        tracks_from c (me_tables e) g) ps Ps.
Proof.
  intros c e now em d ps progs period rest kids FP TP NR NE H. unfold process_mpd_children in H.
  apply bind_inv in H. destruct H as ((k1, p1) & H1 & H).
  destruct (insert_urls_shape _ _ _ _ _ _ _ _ FP TP H1) as (urls & U & -> & ->). clear H1.
  set (sd := if md_lowlat d then [service_description] else []) in *.
  set (pre := (progs ++ urls ++ sd)%list).
  assert (E : (if md_lowlat d then (insert_at (List.length (progs ++ urls)) service_description (progs ++ urls ++ period :: rest),
                 S (List.length (progs ++ urls))) else ((progs ++ urls ++ period :: rest)%list, List.length (progs ++ urls)))
              = ((pre ++ period :: rest)%list, List.length pre)).
  { unfold pre, sd. destruct (md_lowlat d).
    - rewrite (app_assoc progs urls (period :: rest)), insert_at_app. f_equal.
      + rewrite <- !app_assoc. reflexivity.
      + rewrite !app_length. cbn [List.length]. lia.
    - rewrite app_nil_r. f_equal. rewrite <- app_assoc. reflexivity. }
  rewrite E in H. cbv beta iota in H. clear E.
  rewrite skipn_app_exact in H. cbn [find_tag] in H. assert (TP' := TP). apply is_tag_iff in TP'. rewrite TP' in H.
  rewrite nth_error_app2, Nat.sub_diag in H by lia. cbn [nth_error] in H. rewrite Nat.add_0_r in H.
  apply bind_inv in H. destruct H as (utcs & UT & H).
  assert (S1 : firstn (S (List.length pre)) (pre ++ period :: rest) = (pre ++ [period])%list).
  { replace (pre ++ period :: rest)%list with ((pre ++ [period]) ++ rest)%list by (rewrite <- app_assoc; reflexivity).
    replace (S (List.length pre)) with (List.length (pre ++ [period])%list) by (rewrite app_length; cbn [List.length]; lia).
    apply firstn_app_exact. }
  assert (S2 : skipn (S (List.length pre)) (pre ++ period :: rest) = rest).
  { replace (pre ++ period :: rest)%list with ((pre ++ [period]) ++ rest)%list by (rewrite <- app_assoc; reflexivity).
    replace (S (List.length pre)) with (List.length (pre ++ [period])%list) by (rewrite app_length; cbn [List.length]; lia).
    apply skipn_app_exact. }
  rewrite S1, S2 in H. clear S1 S2.
  assert (R : ((pre ++ [period]) ++ repeat period (List.length ps - 1) ++ rest)%list = ((pre ++ repeat period (List.length ps)) ++ rest)%list).
  { destruct ps; [contradiction|]. cbn [List.length repeat]. rewrite Nat.sub_succ, Nat.sub_0_r. rewrite <- !app_assoc. reflexivity. }
  rewrite R in H. clear R.
  replace (List.length pre + List.length ps)%nat with (List.length (pre ++ repeat period (List.length ps))%list) in H
    by (rewrite app_length, repeat_length; reflexivity).
  rewrite firstn_app_exact, skipn_app_exact in H. unfold update_periods in H.
  apply bind_inv in H. destruct H as (g & G & H).
  assert (Gn : forall g2, tracks g2 = tracks g -> tracks_from c (me_tables e) g2).
  { unfold tracks_from. intros g2 E2. destruct (c_segtl c || c_segtlnr c)%bool.
    - right. apply bind_inv in G. destruct G as (g0 & G0 & G). injection G as <-. unfold make_generators in G0.
      apply bind_inv in G0. destruct G0 as (v & V & G0). apply bind_inv in G0. destruct G0 as (a & A & G0). injection G0 as <-.
      destruct g2 as [h|]; [|discriminate]. injection E2 as E3 E4. exists h. rewrite E3, E4. auto.
    - left. injection G as <-. destruct g2; [discriminate|auto]. }
  rewrite <- app_assoc in H.
  apply update_list_prefix in H.
  2: { unfold pre. apply Forall_app. split; [eapply Forall_impl; [|exact FP]; cbv beta; intros y Y; congruence|].
       apply Forall_app. split; [eapply url_elems_tags; exact U|]. unfold sd. destruct (md_lowlat d); repeat constructor. discriminate. }
  destruct H as (r' & H & ->).
  apply update_list_periods in H; [|exact TP|apply Forall_app; split; [|exact NR]; eapply Forall_impl; [|eapply utc_tags; exact UT]; cbv beta; intros y Y; congruence].
  destruct H as (Ps & -> & F). exists urls, utcs, Ps. eexists. split; [exact U|]. split; [exact UT|].
  split; [unfold pre; rewrite <- !app_assoc; reflexivity|].
  eapply Forall2_impl; [|exact F]. cbv beta. intros a b (id' & g2 & g' & A & B). exists id', g2, g'. split; [exact A|]. apply Gn. exact B.
Qed.

(** *** Number addressing: the elements of one period *)
Lemma kids_set : forall k v x, x_kids (set k v x) = x_kids x. Proof. intros k v []; reflexivity. Qed.
Lemma kids_del : forall k x, x_kids (del k x) = x_kids x. Proof. intros k []; reflexivity. Qed.
Lemma kids_set_opt : forall k v x, x_kids (set_opt k v x) = x_kids x. Proof. intros k [] []; reflexivity. Qed.
Lemma kids_set_kids : forall l x, x_kids (set_kids l x) = l. Proof. intros l []; reflexivity. Qed.
Lemma attrs_set_kids : forall l x, x_attrs (set_kids l x) = x_attrs x. Proof. intros l []; reflexivity. Qed.
Lemma kids_set_pto : forall p x, x_kids (set_pto p x) = x_kids x.
Proof. intros p x. unfold set_pto. destruct (String.eqb _ _); [reflexivity|apply kids_set]. Qed.
Lemma get_set_pto_other : forall k p x, k <> "presentationTimeOffset"%string -> get k (set_pto p x) = get k x.
Proof. intros k p x N. unfold set_pto. destruct (String.eqb _ _); [reflexivity|apply get_set_other; exact N]. Qed.
Lemma print_Z_zero : forall z, print_Z z = "0"%string -> z = 0.
Proof. intros z H. change "0"%string with (print_Z 0) in H. apply print_Z_inj in H. exact H. Qed.
Lemma print_Z_nonempty : forall z, print_Z z <> ""%string.
Proof. intros z H. pose proof (py_int_print z) as P. rewrite H in P. vm_compute in P. discriminate. Qed.
Lemma pto_effect : forall p x, get "presentationTimeOffset" (if pto_truthy p then set_pto p x else x) =
  (if no_offset (pto_str p) then get "presentationTimeOffset" x else Some (pto_str p)).
Proof.
  intros p x. unfold set_pto, no_offset. destruct p as [s|z]; cbn [pto_truthy pto_str].
  - destruct (String.eqb s ""); cbn [negb]; [rewrite orb_true_r; reflexivity|]. rewrite orb_false_r.
    destruct (String.eqb s "0"); [reflexivity|apply get_set_same].
  - destruct (Z.eqb_spec z 0) as [->|N]; cbn [negb]; [reflexivity|].
    destruct (String.eqb_spec (print_Z z) "0") as [E|E]; [apply print_Z_zero in E; contradiction|].
    cbn [orb]. destruct (String.eqb_spec (print_Z z) "") as [E'|E']; [exfalso; exact (print_Z_nonempty z E')|apply get_set_same].
Qed.

Lemma template_number : forall e p ct x g' x', update_template e p ct None x = Ok (g', x') -> template_for (pe_cfg e) p x x'.
Proof.
  intros e p ct x g' x' H. unfold update_template in H. injection H as _ <-.
  set (x1 := set "startNumber" (pd_start_number p) x).
  set (x2 := if pto_truthy (pd_pto p) && negb (at_period_level (pe_cfg e)) then set_pto (pd_pto p) x1 else x1).
  set (x3 := if md_lowlat (pe_data e) then _ else x2).
  assert (K3 : forall k, k <> "availabilityTimeOffset"%string -> k <> "availabilityTimeComplete"%string -> get k x3 = get k x2).
  { intros k N1 N2. unfold x3. destruct (md_lowlat _); [|reflexivity]. rewrite !get_set_other by assumption. reflexivity. }
  assert (K2 : forall k, k <> "presentationTimeOffset"%string -> get k x2 = get k x1).
  { intros k N. unfold x2. destruct (_ && _)%bool; [apply get_set_pto_other; exact N|reflexivity]. }
  split.
  - destruct (String.eqb _ _); [apply get_del_same|]. rewrite K3, K2 by discriminate. apply get_set_same.
  - transitivity (get "presentationTimeOffset" x2).
    { destruct (String.eqb _ _); [rewrite get_del_other by discriminate|]; apply K3; discriminate. }
    unfold x2, at_period_level. pose proof (pto_effect (pd_pto p) x1) as E.
    assert (G : get "presentationTimeOffset" x1 = get "presentationTimeOffset" x) by (apply get_set_other; discriminate).
    destruct (Z.leb_spec 0 (c_peroff (pe_cfg e))), (Z.ltb_spec (c_peroff (pe_cfg e)) 0); try lia; cbn [negb andb].
    + rewrite andb_false_r. exact G.
    + rewrite andb_true_r. rewrite E, G. destruct (no_offset _); reflexivity.
  - intros k N. transitivity (get k x3).
    { destruct (String.eqb _ _); [apply get_del_other|reflexivity]. intros ->. apply N. left. reflexivity. }
    rewrite K3; [rewrite K2; [apply get_set_other|]|..]; intros ->; apply N; cbn; tauto.
  - destruct (String.eqb _ _); rewrite ?kids_del; unfold x3; destruct (md_lowlat _); rewrite ?kids_set; unfold x2;
      destruct (_ && _)%bool; rewrite ?kids_set_pto; apply kids_set.
Qed.

Lemma in_other : forall {S} t t' (f : S -> xml -> result (S * xml)) l s s' l',
  (forall s x s' x', f s x = Ok (s', x') -> x_tag x' = x_tag x) -> update_tagged t f s l = Ok (s', l') -> t' <> t ->
  tagged t' l' = tagged t' l.
Proof. intros. eapply update_tagged_other; eassumption. Qed.
Lemma tagged_cons : forall t x l, tagged t (x :: l) = if String.eqb (x_tag x) t then x :: tagged t l else tagged t l.
Proof. reflexivity. Qed.

Lemma adaptation_number : forall e p id x g' x', update_adaptation_set e p id None x = Ok (g', x') -> adaptation_for (pe_cfg e) p x x'.
Proof.
  intros e p id x g' x' H. unfold update_adaptation_set in H.
  set (sc := match get "contentType" x with Some s => (s =? "video")%string && (0 <? c_scte35 (pe_cfg e)) | None => false end) in *.
  set (ct := (c_cont_mp (pe_cfg e) && negb (id =? "-1")%string)%bool) in *.
  match type of H with bind (update_tagged _ _ None ?k) _ = _ => set (kids := k) in * end.
  apply bind_inv in H. destruct H as ((h, k) & K & H). injection H as _ <-.
  assert (O : forall t, ~ In t ["InbandEventStream"; "SupplementalProperty"; "ProducerReferenceTime"]%string -> tagged t kids = tagged t (x_kids x)).
  { intros t N. assert (N1 : String.eqb "InbandEventStream" t = false) by (apply String.eqb_neq; intros <-; apply N; cbn; tauto).
    assert (N2 : String.eqb "SupplementalProperty" t = false) by (apply String.eqb_neq; intros <-; apply N; cbn; tauto).
    assert (N3 : String.eqb "ProducerReferenceTime" t = false) by (apply String.eqb_neq; intros <-; apply N; cbn; tauto).
    unfold kids. clearbody sc ct. clear -N1 N2 N3.
    destruct (pe_emsg e), sc, ct, (md_lowlat (pe_data e)); cbn [insert_at firstn skipn app]; rewrite ?tagged_cons;
      cbn [x_tag descriptor producer_reference]; rewrite ?N1, ?N2, ?N3; reflexivity. }
  assert (S : Forall2 (fun y z => template_for (pe_cfg e) p y z) (tagged "SegmentTemplate" kids) (tagged "SegmentTemplate" k)).
  { clear O. clearbody kids. revert K. generalize (get "contentType" x) as c0. intros c0. revert h k.
    induction kids as [|y l IH]; intros h k K; cbn [update_tagged] in K; [injection K as <- <-; constructor|].
    destruct (is_tag "SegmentTemplate" y) eqn:E.
    - apply bind_inv in K. destruct K as ((s1, x1) & H1 & K). assert (s1 = None) by (cbn in H1; congruence). subst s1.
      apply bind_inv in K. destruct K as ((s2, r2) & H2 & K). injection K as <- <-.
      rewrite !tagged_cons. rewrite (template_tag _ _ _ _ _ _ _ H1). unfold is_tag in E. rewrite E.
      constructor; [eapply template_number; exact H1|eapply IH; exact H2].
    - apply bind_inv in K. destruct K as ((s2, r2) & H2 & K). injection K as <- <-.
      rewrite !tagged_cons. unfold is_tag in E. rewrite E. eapply IH; exact H2. }
  split.
  - apply attrs_set_kids.
  - unfold children. rewrite kids_set_kids. rewrite O in S by (cbn; intuition discriminate). exact S.
  - intros t N. unfold children. rewrite kids_set_kids.
    transitivity (tagged t kids); [|apply O; intros I; apply N; cbn in *; tauto].
    eapply update_tagged_other; [|..|exact K]; [intros * ?; eapply template_tag; eassumption|].
    intros ->. apply N. left. reflexivity.
Qed.
Lemma period_number : forall e p id x g' x', x_tag x = "Period"%string -> update_period e p id None x = Ok (g', x') -> period_for (pe_cfg e) p x x'.
Proof.
  intros e p id x g' x' T H. unfold update_period in H.
  set (x1 := set "start" (pd_start p) (set "id" (pd_id p) x)) in *.
  set (x2 := match pd_etp p with Some t => set "duration" ("PT" ++ print_Z t ++ "S") x1 | None => x1 end) in *.
  set (x3 := set_opt "duration" (pd_period_duration p) x2) in *.
  set (lvl := (pto_truthy (pd_pto p) && at_period_level (pe_cfg e))%bool) in *.
  set (sb := Elem "SegmentBase" _ "" []) in *.
  apply bind_inv in H. destruct H as (z & Z & H). apply bind_inv in H. destruct H as ((h, k) & K & H). injection H as _ <-.
  assert (G : forall q, get q (set_kids k z) = get q x3).
  { intros q. rewrite get_set_kids. destruct (pd_callback p); [apply bind_inv in Z; destruct Z as (u & _ & Z)|]; injection Z as <-;
      destruct lvl; rewrite ?get_set_kids; reflexivity. }
  assert (K3 : x_kids x3 = x_kids x).
  { unfold x3, x2, x1. rewrite kids_set_opt. destruct (pd_etp p); rewrite !kids_set; reflexivity. }
  assert (E : forall t, t <> "EventStream"%string -> tagged t (x_kids z) = tagged t (if lvl then sb :: x_kids x else x_kids x)).
  { intros t N. assert (N1 : String.eqb "EventStream" t = false) by (apply String.eqb_neq; congruence).
    destruct (pd_callback p); [apply bind_inv in Z; destruct Z as (u & _ & Z)|]; injection Z as <-;
      destruct lvl; rewrite ?kids_set_kids, ?K3; cbn [insert_at firstn skipn app]; rewrite ?tagged_cons; cbn [x_tag descriptor];
      rewrite ?N1; reflexivity. }
  assert (D : forall q, q <> "duration"%string -> get q x3 = get q x1).
  { intros q N. unfold x3. rewrite get_set_opt_other by exact N. unfold x2. destruct (pd_etp p); [apply get_set_other; exact N|reflexivity]. }
  split.
  - rewrite G, D by discriminate. unfold x1. rewrite get_set_other by discriminate. apply get_set_same.
  - rewrite G, D by discriminate. apply get_set_same.
  - rewrite G. unfold x3. destruct (pd_period_duration p); cbn [set_opt]; [apply get_set_same|].
    unfold x2. destruct (pd_etp p); [apply get_set_same|]. unfold x1. rewrite !get_set_other by discriminate. reflexivity.
  - intros q N. rewrite G, D by (intros ->; apply N; cbn; tauto). unfold x1.
    rewrite !get_set_other by (intros ->; apply N; cbn; tauto). reflexivity.
  - intros L NO. unfold children. rewrite kids_set_kids.
    assert (TR : pto_truthy (pd_pto p) = true).
    { destruct (pd_pto p) as [s|n]; cbn [pto_truthy pto_str] in *; unfold no_offset in NO; apply orb_false_elim in NO; destruct NO as (N1 & N2).
      - rewrite N2. reflexivity.
      - destruct (n =? 0) eqn:Q0; [apply Z.eqb_eq in Q0; rewrite Q0 in N1; discriminate N1|reflexivity]. }
    assert (LV : lvl = true). { unfold lvl, at_period_level. rewrite TR. cbn [andb]. lia. }
    exists sb. split.
    + transitivity (tagged "SegmentBase" (x_kids z)).
      * eapply update_tagged_other; [|..|exact K]; [intros * ?; eapply adaptation_tag; eassumption|discriminate].
      * rewrite E by discriminate. rewrite LV, tagged_cons. reflexivity.
    + unfold sb. assert (Q : pto_not_zero_int (pd_pto p) = true).
      { destruct (pd_pto p) as [s|n]; [reflexivity|]. cbn in *. exact TR. }
      rewrite Q. reflexivity.
  - unfold children. rewrite kids_set_kids.
    assert (EE : tagged "AdaptationSet" (x_kids z) = tagged "AdaptationSet" (x_kids x)).
    { rewrite E by discriminate. destruct lvl; [rewrite tagged_cons|]; reflexivity. }
    rewrite <- EE. clear -K. revert h k K. generalize (x_kids z) as l. induction l as [|y l IH]; intros h k K; cbn [update_tagged] in K; [injection K as <- <-; constructor|].
    destruct (is_tag "AdaptationSet" y) eqn:E.
    + apply bind_inv in K. destruct K as ((s1, x1) & H1 & K).
      assert (s1 = None).
      { unfold update_adaptation_set in H1. apply bind_inv in H1. destruct H1 as ((a, b) & U & H1). injection H1 as <- _.
        eapply (update_tagged_state _ _ (fun h => h = None)); [|reflexivity|exact U]. cbv beta. intros s q s' q' -> V. cbn in V. congruence. }
      subst s1. apply bind_inv in K. destruct K as ((s2, r2) & H2 & K). injection K as <- <-.
      rewrite !tagged_cons. rewrite (adaptation_tag _ _ _ _ _ _ _ H1). unfold is_tag in E. rewrite E.
      constructor; [eapply adaptation_number; exact H1|eapply IH; exact H2].
    + apply bind_inv in K. destruct K as ((s2, r2) & H2 & K). injection K as <- <-.
      rewrite !tagged_cons. unfold is_tag in E. rewrite E. eapply IH; exact H2.
  - intros t N. unfold children. rewrite kids_set_kids.
    transitivity (tagged t (x_kids z)).
    + eapply update_tagged_other; [|..|exact K]; [intros * ?; eapply adaptation_tag; eassumption|intros ->; apply N; cbn; tauto].
    + rewrite E by (intros ->; apply N; cbn; tauto). destruct lvl; [rewrite tagged_cons|reflexivity].
      destruct (String.eqb_spec (x_tag sb) t) as [<-|]; [exfalso; apply N; cbn; tauto|reflexivity].
Qed.
