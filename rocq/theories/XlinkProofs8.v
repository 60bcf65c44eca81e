(** The manifest tree does not depend on the requested file name. *)
From Verif Require Import Base BaseProofs ConfigModel StrModel PeriodModel MpdModel XlinkModel XlinkSpec.
Open Scope Z_scope.
Notation same_cfg f x c := (set_ext x (set_filename f c)) (only parsing).
Lemma loop_same : forall f x c n pd af nrs acc, period_loop (same_cfg f x c) n pd af nrs acc = period_loop c n pd af nrs acc.
Proof.
  intros f x c n pd af nrs. induction nrs as [|z r IH]; intros acc; [reflexivity|]. cbn [period_loop].
  change (one_period (same_cfg f x c)) with (one_period c). destruct (one_period c n pd z); [|reflexivity]. cbn [bind]. apply IH.
Qed.
Lemma data_same : forall f x c sn pto now, generate_period_data (same_cfg f x c) sn pto now = generate_period_data c sn pto now.
Proof.
  intros. unfold generate_period_data. cbv zeta. change (c_pph (same_cfg f x c)) with (c_pph c). change (c_insert_ad (same_cfg f x c)) with (c_insert_ad c).
  change (c_xlink (same_cfg f x c)) with (c_xlink c). change (c_seg_dur (same_cfg f x c)) with (c_seg_dur c).
  change (c_segtl (same_cfg f x c)) with (c_segtl c). change (c_segtlnr (same_cfg f x c)) with (c_segtlnr c). change (c_tsbd (same_cfg f x c)) with (c_tsbd c).
  destruct (negb (count_allowed (Z.min (c_pph c) 60))); [reflexivity|].
  destruct (if 0 <? c_insert_ad c then py_div (Z.min (c_pph c) 60) (c_xlink c) else Ok (-1)) as [z|]; [|reflexivity]. cbn [bind].
  destruct (Z.min (c_pph c) 60 =? -1); [reflexivity|]. destruct (Z.min (c_pph c) 60 =? 0); [reflexivity|].
  destruct (c_tsbd c); [|reflexivity]. rewrite loop_same. reflexivity.
Qed.
Lemma tagged_ext : forall {S} t (f g : S -> xml -> result (S * xml)) l, (forall s x, f s x = g s x) ->
  forall s, update_tagged t f s l = update_tagged t g s l.
Proof.
  intros S t f g l E. induction l as [|y l IH]; intros s; [reflexivity|]. cbn [update_tagged]. rewrite E.
  destruct (is_tag t y); [destruct (g s y) as [(s1, y1)|]; [cbn [bind]|reflexivity]|]; rewrite IH; reflexivity.
Qed.
Lemma period_same : forall f x c now em d cb p lid g y,
  update_period (mk_penv (same_cfg f x c) now em d cb) p lid g y = update_period (mk_penv c now em d cb) p lid g y.
Proof.
  intros. unfold update_period. cbv zeta. change (at_period_level (pe_cfg (mk_penv (same_cfg f x c) now em d cb))) with (at_period_level (pe_cfg (mk_penv c now em d cb))).
  change (pe_callback_url (mk_penv (same_cfg f x c) now em d cb)) with (pe_callback_url (mk_penv c now em d cb)).
  destruct (if pd_callback p then _ else _) as [z|]; [|reflexivity]. cbn [bind].
  rewrite (tagged_ext "AdaptationSet" _ (fun g x => update_adaptation_set (mk_penv c now em d cb) p lid g x)); [reflexivity|].
  intros s w. unfold update_adaptation_set. cbv zeta.
  change (c_scte35 (pe_cfg (mk_penv (same_cfg f x c) now em d cb))) with (c_scte35 (pe_cfg (mk_penv c now em d cb))).
  change (c_cont_mp (pe_cfg (mk_penv (same_cfg f x c) now em d cb))) with (c_cont_mp (pe_cfg (mk_penv c now em d cb))).
  change (pe_emsg (mk_penv (same_cfg f x c) now em d cb)) with (pe_emsg (mk_penv c now em d cb)).
  change (pe_data (mk_penv (same_cfg f x c) now em d cb)) with (pe_data (mk_penv c now em d cb)).
  rewrite (tagged_ext "SegmentTemplate" _ (fun g x => update_template (mk_penv c now em d cb) p (get "contentType" w) g x)); [reflexivity|].
  intros s' w'. reflexivity.
Qed.
Lemma list_same : forall f x c now em d cb l ps lid g,
  update_period_list (mk_penv (same_cfg f x c) now em d cb) ps lid g l = update_period_list (mk_penv c now em d cb) ps lid g l.
Proof.
  intros f x c now em d cb l. induction l as [|y l IH]; intros ps lid g; [reflexivity|]. cbn [update_period_list]. destruct (is_tag "Period" y).
  - destruct ps as [|p ps]; [reflexivity|]. rewrite period_same. destruct (update_period _ p lid g y) as [(g1, y1)|]; [|reflexivity]. cbn [bind]. rewrite IH. reflexivity.
  - rewrite IH. reflexivity.
Qed.
Lemma periods_same : forall f x c now em d t ps k, update_periods (same_cfg f x c) now em d t ps k = update_periods c now em d t ps k.
Proof.
  intros. unfold update_periods. change (make_generators (same_cfg f x c) t) with (make_generators c t).
  change (c_segtl (same_cfg f x c)) with (c_segtl c). change (c_segtlnr (same_cfg f x c)) with (c_segtlnr c).
  destruct (if c_segtl c || c_segtlnr c then _ else _) as [g|]; [|reflexivity]. cbn [bind]. apply list_same.
Qed.
Lemma gen_same : forall f x c e s em now, generate_dynamic_mpd (same_cfg f x c) e s em now = generate_dynamic_mpd c e s em now.
Proof.
  intros. unfold generate_dynamic_mpd. change (mpd_data_of (same_cfg f x c) now) with (mpd_data_of c now).
  destruct (mpd_data_of c now) as [d|]; [|reflexivity]. cbn [bind]. change (ConfigModel.adjusted_start_number (same_cfg f x c)) with (ConfigModel.adjusted_start_number c).
  destruct (ConfigModel.adjusted_start_number c) as [sn|]; [|reflexivity]. cbn [bind]. rewrite data_same.
  change (ConfigModel.adjusted_pto (same_cfg f x c) 0 1) with (ConfigModel.adjusted_pto c 0 1).
  destruct (generate_period_data c sn (ConfigModel.adjusted_pto c 0 1) now) as [(mup, ps)|]; [|reflexivity]. cbn [bind].
  change (process_mpd (same_cfg f x c)) with (process_mpd c). destruct (process_mpd c d _ now s) as [root|]; [|reflexivity]. cbn [bind].
  f_equal. unfold process_mpd_children. change (insert_urls (same_cfg f x c)) with (insert_urls c).
  destruct (insert_urls c e d (x_kids root)) as [(kids, pos)|]; [|reflexivity]. cbn [bind].
  destruct (md_lowlat d);
    (destruct (find_tag "Period" _) as [off|]; [|reflexivity]; destruct (nth_error _ _) as [per|]; [|reflexivity];
     destruct (utc_timings _ _ _) as [ut|]; [|reflexivity]; cbn [bind]; apply periods_same).
Qed.
Lemma loss_ext : forall gen gen' em now m d t is r, (forall b z, gen b z = gen' b z) -> loss_loop gen em now m d t is r = loss_loop gen' em now m d t is r.
Proof.
  intros gen gen' em now m d t is. revert em. induction is as [|i is IH]; intros em r E; [reflexivity|]. cbn [loss_loop]. rewrite !E.
  destruct (_ && _); [reflexivity|]. destruct (m =? i * t + d); [|apply IH; exact E]. destruct (gen' true now) as [r'|]; [|reflexivity]. cbn [bind]. apply IH. exact E.
Qed.
Lemma get_ext : forall c c' e e' s now, mpd_option_checks c' = mpd_option_checks c -> c_emsg_last c' = c_emsg_last c ->
  c_multi_url c' = c_multi_url c -> c_stl_loss c' = c_stl_loss c ->
  (forall em z, generate_dynamic_mpd c' e' s em z = generate_dynamic_mpd c e s em z) -> get_mpd c' e' s now = get_mpd c e s now.
Proof.
  intros c c' e e' s now E1 E2 E3 E4 G. unfold get_mpd. cbv zeta. rewrite E1, E2, E3, E4, G. destruct (mpd_option_checks c); [|cbn [bind]; reflexivity]. cbn [bind].
  destruct (generate_dynamic_mpd c e s (c_emsg_last c) now) as [r|]; [|cbn [bind]; reflexivity]. cbn [bind]. destruct (c_multi_url c) as [|v us]; [reflexivity|].
  destruct (c_stl_loss c); [|reflexivity]. destruct (ProxyModel.parse_updown v) as [((a1, d1), (b1, d2))|]; [|cbn [bind]; reflexivity]. cbn [bind].
  destruct (_ =? 0); [reflexivity|]. destruct (_ && _); [|reflexivity]. apply loss_ext. exact G.
Qed.
Lemma mpd_same : forall f x c e s now, get_mpd (same_cfg f x c) e s now = get_mpd c e s now.
Proof. intros. apply get_ext; try reflexivity. intros. apply gen_same. Qed.
(** The full URL is only used for the Location. *)
Lemma url_same : forall c e u s now, c_add_loc c = false ->
  get_mpd c (mk_menv u (me_head_url e) (me_wall e) (me_tables e)) s now = get_mpd c e s now.
Proof.
  intros c e u s now A. set (e' := mk_menv u _ _ _).
  assert (G : forall em z, generate_dynamic_mpd c e' s em z = generate_dynamic_mpd c e s em z).
  { intros em z. unfold generate_dynamic_mpd. destruct (mpd_data_of c z) as [d|]; [|reflexivity]. cbn [bind]. destruct (ConfigModel.adjusted_start_number c); [|reflexivity]. cbn [bind].
    destruct (generate_period_data c _ _ z) as [(mup, ps)|]; [|reflexivity]. cbn [bind]. destruct (process_mpd c d _ z s) as [root|]; [|reflexivity]. cbn [bind].
    f_equal. unfold process_mpd_children. assert (I : insert_urls c e' d (x_kids root) = insert_urls c e d (x_kids root)).
    { unfold insert_urls. rewrite A. reflexivity. }
    rewrite I. reflexivity. }
  apply get_ext; try reflexivity. exact G.
Qed.
