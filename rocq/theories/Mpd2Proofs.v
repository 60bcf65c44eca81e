(** Lemmas about the children of the generated manifest and its URLs. *)
From Coq Require Import Lqa ZifyBool ZifyNat.
From Verif Require Import Base BaseProofs ConfigModel ProxyModel ProxySpec ProxyProofs ProxyTheory ConfigProofs ConfigTheory SessionProofs
  TimeModel StrModel TimelineModel PeriodModel PeriodSpec MpdModel MpdSpec Mpd2Spec MpdProofs ClockProofs.
Local Open Scope string_scope.
Open Scope Z_scope.

Definition has_tag (t : string) (x : xml) : bool := String.eqb (x_tag x) t.
Lemma filter_all : forall t l, Forall (fun y => x_tag y = t) l -> filter (has_tag t) l = l.
Proof.
  intros t l F. induction F as [|y l E F IH]; cbn [filter]; [reflexivity|].
  unfold has_tag at 1. rewrite E, String.eqb_refl, IH. reflexivity.
Qed.
Lemma filter_none : forall t t' l, t <> t' -> Forall (fun y => x_tag y = t') l -> filter (has_tag t) l = [].
Proof.
  intros t t' l N F. induction F as [|y l E F IH]; cbn [filter]; [reflexivity|].
  unfold has_tag at 1. rewrite E. destruct (String.eqb_spec t' t); [congruence|exact IH].
Qed.
Lemma filter_none' : forall t l, none t l -> filter (has_tag t) l = [].
Proof.
  intros t l F. induction F as [|y l E F IH]; cbn [filter]; [reflexivity|].
  unfold has_tag at 1. destruct (String.eqb_spec (x_tag y) t); [congruence|exact IH].
Qed.
Lemma url_elems_only : forall c e d urls t, url_elems c e d = Ok urls -> t <> "BaseURL" -> t <> "Location" -> none t urls.
Proof.
  intros c e d urls t H N1 N2. unfold url_elems in H. destruct (c_add_loc c).
  - apply bind_inv in H. destruct H as (u & _ & H). injection H as <-. repeat constructor. cbn. congruence.
  - apply bind_inv in H. destruct H as (us & _ & H). injection H as <-. apply Forall_forall. intros y I.
    apply in_map_iff in I. destruct I as (u & <- & _). cbn. congruence.
Qed.

(** The generated children, tag by tag. *)
Lemma children_of : forall c e src em now x progs period rest d sn mup ps,
  x_kids src = (progs ++ period :: rest)%list ->
  Forall (fun y => x_tag y = "ProgramInformation") progs -> x_tag period = "Period" -> none "Period" rest ->
  generate_dynamic_mpd c e src em now = Ok x ->
  mpd_data_of c now = Ok d ->
  adjusted_start_number c = Ok sn -> generate_period_data c sn (adjusted_pto c 0 1) now = Ok (mup, ps) -> ps <> [] ->
  exists urls cb, url_elems c e d = Ok urls /\
    (forall t, t = "BaseURL" \/ t = "Location" -> children t x = (filter (has_tag t) urls ++ filter (has_tag t) rest)%list) /\
    Forall2 (fun p P => exists id g g', update_period (mk_penv c now em d cb) p id g period = Ok (g', P) /\
                        tracks_from c (me_tables e) g) ps (children "Period" x) /\
    (forall t, ~ In t ["Period"; "BaseURL"; "Location"; "ServiceDescription"; "UTCTiming"] -> children t x = children t src).
Proof.
  intros c e src em now x progs period rest d sn mup ps K FP TP NR G D SN GP NE.
  destruct (generate_inv _ _ _ _ _ _ G) as (d' & sn' & mup' & ps' & root & kids & D' & SN' & GP' & _ & H & ->).
  rewrite D in D'. injection D' as <-. rewrite SN in SN'. injection SN' as <-. rewrite GP in GP'. injection GP' as <- <-.
  rewrite K in H.
  destruct (children_shape _ _ _ _ _ _ _ _ _ _ FP TP NR NE H) as (urls & utcs & Ps & cb & U & UT & -> & F).
  exists urls, cb. split; [exact U|].
  assert (TPs : Forall (fun y => x_tag y = "Period") Ps).
  { clear - F TP. induction F as [|p P ps Ps (id & g & g' & A & _) F IH]; constructor; [|exact IH].
    rewrite (period_tag _ _ _ _ _ _ _ A). exact TP. }
  assert (TU := utc_tags _ _ _ _ UT).
  set (sd := if md_lowlat d then [service_description] else []) in *.
  assert (SDt : Forall (fun y => x_tag y = "ServiceDescription") sd).
  { unfold sd. destruct (md_lowlat d); repeat constructor. }
  clearbody sd.
  unfold children. rewrite kids_set_kids. change (fun y => String.eqb (x_tag y) ?t) with (has_tag t).
  assert (NU := fun t => url_elems_only _ _ _ _ t U).
  split; [|split].
  - intros t T.
    change (fun y => String.eqb (x_tag y) t) with (has_tag t). rewrite !filter_app.
    rewrite (filter_none t "ProgramInformation" progs) by (assumption || (destruct T as [-> | ->]; discriminate)).
    rewrite (filter_none t "Period" Ps), (filter_none t "UTCTiming" utcs), (filter_none t "ServiceDescription" sd);
      try assumption; try (destruct T as [-> | ->]; discriminate).
    reflexivity.
  - change (fun y => String.eqb (x_tag y) "Period") with (has_tag "Period"). rewrite !filter_app.
    rewrite (filter_none "Period" "ProgramInformation" progs), (filter_none' "Period" urls), (filter_none "Period" "ServiceDescription" sd),
      (filter_all "Period" Ps), (filter_none "Period" "UTCTiming" utcs), (filter_none' "Period" rest); try assumption; try discriminate; try (apply NU; discriminate).
    cbn [app]. rewrite !app_nil_r. exact F.
  - intros t N. change (fun y => String.eqb (x_tag y) t) with (has_tag t). rewrite K, !filter_app.
    cbn [In] in N.
    rewrite (filter_none' t urls), (filter_none t "ServiceDescription" sd), (filter_none t "Period" Ps), (filter_none t "UTCTiming" utcs);
      try assumption; try (intros ->; tauto); try (apply NU; intros ->; tauto).
    cbn [app filter]. 
    assert (E : has_tag t period = false) by (unfold has_tag; rewrite TP; destruct (String.eqb_spec "Period" t) as [<-|]; [tauto|reflexivity]).
    rewrite E. reflexivity.
Qed.

(** Elements other than periods come through the update of the periods. *)
Lemma list_filter : forall t e l ps lid g k, t <> "Period" -> update_period_list e ps lid g l = Ok k -> filter (has_tag t) k = filter (has_tag t) l.
Proof.
  intros t e l. induction l as [|y l IH]; intros ps lid g k N H; cbn [update_period_list] in H; [injection H as <-; reflexivity|].
  destruct (is_tag "Period" y) eqn:T.
  - destruct ps as [|p ps]; [injection H as <-; reflexivity|]. apply bind_inv in H. destruct H as ((g1, y1) & U & H).
    apply bind_inv in H. destruct H as (r1 & R & H). injection H as <-. cbn [filter]. apply is_tag_iff in T.
    assert (A : has_tag t y = false) by (unfold has_tag; rewrite T; destruct (String.eqb_spec "Period" t); congruence).
    assert (B : has_tag t y1 = false) by (unfold has_tag in *; rewrite (period_tag _ _ _ _ _ _ _ U); exact A).
    rewrite A, B. exact (IH _ _ _ _ N R).
  - apply bind_inv in H. destruct H as (r1 & R & H). injection H as <-. cbn [filter]. rewrite (IH _ _ _ _ N R). reflexivity.
Qed.
Lemma source_base : forall c e now em d ps progs b period rest kids,
  Forall (fun y => x_tag y = "ProgramInformation") progs -> x_tag b = "BaseURL" -> x_tag period = "Period" -> none "BaseURL" rest ->
  c_add_loc c = false -> process_mpd_children c e now em d ps (progs ++ b :: period :: rest) = Ok kids ->
  filter (has_tag "BaseURL") kids = [Elem "BaseURL" (x_attrs b) (c_base_url c) (x_kids b)].
Proof.
  intros c e now em d ps progs b period rest kids FP TB TP NR AL H. unfold process_mpd_children in H.
  assert (CL : count_leading "ProgramInformation" (progs ++ b :: period :: rest) = List.length progs).
  { clear H. induction progs as [|y l IH]; cbn [app count_leading].
    - destruct (is_tag "ProgramInformation" b) eqn:E; [apply is_tag_iff in E; congruence|reflexivity].
    - inversion FP as [|? ? F1 F2]; subst. apply is_tag_iff in F1. rewrite F1, IH by exact F2. reflexivity. }
  assert (U : insert_urls c e d (progs ++ b :: period :: rest)
              = Ok ((progs ++ Elem "BaseURL" (x_attrs b) (c_base_url c) (x_kids b) :: period :: rest)%list, S (List.length progs))).
  { unfold insert_urls. rewrite CL, nth_error_app2, Nat.sub_diag by lia. cbn [nth_error]. assert (TB' := TB). apply is_tag_iff in TB'. rewrite TB', AL. cbn [bind].
    rewrite firstn_app_exact. replace (skipn (S (List.length progs)) (progs ++ b :: period :: rest)) with (period :: rest); [rewrite TB; reflexivity|].
    change (S (List.length progs)) with (1 + List.length progs)%nat. rewrite skipn_app, skipn_all2 by lia. replace (1 + List.length progs - List.length progs)%nat with 1%nat by lia. reflexivity. }
  rewrite U in H. cbn [bind] in H. clear U CL. set (b' := Elem "BaseURL" (x_attrs b) (c_base_url c) (x_kids b)) in *.
  set (sd := if md_lowlat d then [service_description] else []).
  set (pre := (progs ++ b' :: sd)%list).
  assert (E : (if md_lowlat d then (insert_at (S (List.length progs)) service_description (progs ++ b' :: period :: rest), S (S (List.length progs)))
               else ((progs ++ b' :: period :: rest)%list, S (List.length progs))) = ((pre ++ period :: rest)%list, List.length pre)).
  { unfold pre, sd. destruct (md_lowlat d).
    - replace (S (List.length progs)) with (List.length (progs ++ [b'])) by (rewrite app_length; cbn [List.length]; lia).
      replace (progs ++ b' :: period :: rest)%list with ((progs ++ [b']) ++ period :: rest)%list by (rewrite <- app_assoc; reflexivity).
      rewrite insert_at_app. f_equal; [rewrite <- !app_assoc; reflexivity|rewrite !app_length; cbn [List.length]; lia].
    - f_equal; [rewrite <- app_assoc; reflexivity|rewrite app_length; cbn [List.length]; lia]. }
  rewrite E in H. cbv beta iota in H. clear E.
  rewrite skipn_app_exact in H. cbn [find_tag] in H. assert (TP' := TP). apply is_tag_iff in TP'. rewrite TP' in H.
  rewrite nth_error_app2, Nat.sub_diag in H by lia. cbn [nth_error] in H. rewrite Nat.add_0_r in H.
  apply bind_inv in H. destruct H as (utcs & UT & H). unfold update_periods in H. apply bind_inv in H. destruct H as (g & _ & H).
  apply (list_filter "BaseURL") in H; [|discriminate]. rewrite H. clear H.
  assert (F : forall n (l : list xml), (filter (has_tag "BaseURL") (firstn n l) ++ filter (has_tag "BaseURL") (skipn n l))%list = filter (has_tag "BaseURL") l).
  { intros n l. rewrite <- filter_app, firstn_skipn. reflexivity. }
  rewrite filter_app, filter_app. apply utc_tags in UT. rewrite (filter_none "BaseURL" "UTCTiming" utcs) by (assumption || discriminate). cbn [app]. rewrite F.
  rewrite filter_app, filter_app. assert (R : filter (has_tag "BaseURL") (repeat period (List.length ps - 1)) = []).
  { apply (filter_none _ "Period"); [discriminate|]. apply Forall_forall. intros y Y. apply repeat_spec in Y. subst y. exact TP. }
  rewrite R. cbn [app]. rewrite F. unfold pre. rewrite !filter_app. rewrite (filter_none "BaseURL" "ProgramInformation" progs) by (assumption || discriminate).
  cbn [app filter]. change (has_tag "BaseURL" b') with true. cbv iota.
  assert (P : has_tag "BaseURL" period = false) by (unfold has_tag; rewrite TP; reflexivity). rewrite P, (filter_none' "BaseURL" rest NR), app_nil_r.
  unfold sd. destruct (md_lowlat d); reflexivity.
Qed.

(** *** The base URL plays no role after the file data are set *)
Section Base.
Variable base : string.
Notation rf := (set_base_url base).

Lemma sb_vodcfg : forall c v, update_with_vodcfg (rf c) v = rf (update_with_vodcfg c v).
Proof. intros. unfold update_with_vodcfg. change (c_tsbd (rf c)) with (c_tsbd c). destruct (c_tsbd c); reflexivity. Qed.
Lemma sb_aet : forall now pairs c, update_with_aet now pairs (rf c) = lift rf (update_with_aet now pairs c).
Proof.
  intros. unfold update_with_aet. change (c_mup (rf c)) with (c_mup c).
  destruct (rev pairs) as [|(a, b) r]; [reflexivity|]. destruct (c_mup c); [|reflexivity].
  destruct (aet_loop _ _ _ _ _). reflexivity.
Qed.
Lemma sb_start : forall s durs now stop c, process_start_time s durs now stop (rf c) = lift rf (process_start_time s durs now stop c).
Proof.
  intros s durs now stop c. unfold process_start_time.
  change (c_seg_dur (rf c)) with (c_seg_dur c).
  destruct (quantize s (c_seg_dur c)) as [a|]; cbn [bind]; [|reflexivity].
  change (set_start_time (Some a) (set_ast a (rf c))) with (rf (set_start_time (Some a) (set_ast a c))).
  set (c1 := set_start_time (Some a) (set_ast a c)).
  change (c_mup (rf c1)) with (c_mup c1).
  assert (E : match c_mup c1 with None => set_mup (Some (inject_Z 10)) (rf c1) | Some _ => rf c1 end
     = rf (match c_mup c1 with None => set_mup (Some (inject_Z 10)) c1 | Some _ => c1 end)).
  { destruct (c_mup c1); reflexivity. }
  rewrite E. set (c2 := match c_mup c1 with None => set_mup (Some (inject_Z 10)) c1 | Some _ => c1 end).
  clearbody c2. clear E.
  set (X := match durs with [] => Ok (rf c2) | _ => _ end).
  set (Y := match durs with [] => Ok c2 | _ => _ end).
  assert (XY : X = lift rf Y).
  { unfold X, Y. destruct durs as [|d0 ds]; [reflexivity|].
    destruct (end_times _ _ _ _) as [pairs|]; cbn [bind]; [|reflexivity].
    destruct (py_last pairs) as [lp|]; cbn [bind]; [|reflexivity].
    destruct (py_div _ _) as [q|]; cbn [bind]; [|reflexivity].
    change (set_last_nrs (c_last_nrs (rf c2) ++ [inject_Z (q - 1)]) (rf c2))
      with (rf (set_last_nrs (c_last_nrs c2 ++ [inject_Z (q - 1)]) c2)).
    apply sb_aet. }
  rewrite XY. destruct Y as [c3|]; cbn [bind lift]; [|reflexivity].
  destruct stop as [st|]; [|reflexivity].
  destruct (quantize _ _); reflexivity.
Qed.
Lemma sb_tfdt : forall now c, update_for_tfdt32 now (rf c) = lift rf (update_for_tfdt32 now c).
Proof. intros. unfold update_for_tfdt32. destruct (quantize _ _); reflexivity. Qed.
Lemma sb_cont : forall now c, update_for_cont_update now (rf c) = lift rf (update_for_cont_update now c).
Proof.
  intros. unfold update_for_cont_update. change (c_seg_dur (rf c)) with (c_seg_dur c).
  destruct (quantize _ _); reflexivity.
Qed.
Lemma sb_modulo : forall m d c, update_with_modulo_period m d (rf c) = lift rf (update_with_modulo_period m d c).
Proof. intros. unfold update_with_modulo_period. destruct (mo_last_nr m d); reflexivity. Qed.
Lemma sb_publish : forall now c, update_publish_time now (rf c) = lift rf (update_publish_time now c).
Proof.
  intros. unfold update_publish_time. change (c_ast (rf c)) with (c_ast c). change (c_mup (rf c)) with (c_mup c).
  destruct (c_ast c =? 0); [reflexivity|]. destruct (c_mup c) as [m|]; [|reflexivity].
  destruct (quantizeQ now m); reflexivity.
Qed.
End Base.
Lemma sb_tail : forall base now v u c,
  finish_tail now v u (set_base_url base c) = lift (set_base_url base) (finish_tail now v u c).
Proof.
  intros base now v u c. unfold finish_tail. rewrite sb_vodcfg.
  set (c1 := update_with_vodcfg c v). clearbody c1.
  set (X := match u_start u with None => Ok (set_base_url base c1) | Some s => _ end).
  set (Y := match u_start u with None => Ok c1 | Some s => _ end).
  assert (E : X = lift (set_base_url base) Y).
  { unfold X, Y. destruct (u_start u); [|reflexivity]. destruct (u_mod u); [reflexivity|]. apply sb_start. }
  rewrite E. destruct Y as [c2|]; cbn [bind lift]; [|reflexivity]. clear E X.
  change (c_tfdt32 (set_base_url base c2)) with (c_tfdt32 c2).
  set (X := if c_tfdt32 c2 then if u_cont u then _ else update_for_tfdt32 now (set_base_url base c2) else _).
  set (Y := if c_tfdt32 c2 then if u_cont u then _ else update_for_tfdt32 now c2 else _).
  assert (E : X = lift (set_base_url base) Y).
  { unfold X, Y. destruct (c_tfdt32 c2); [|reflexivity]. destruct (u_cont u); [reflexivity|]. apply sb_tfdt. }
  rewrite E. destruct Y as [c3|]; cbn [bind lift]; [|reflexivity]. clear E X.
  set (X := if u_cont u then update_for_cont_update now (set_base_url base c3) else _).
  set (Y := if u_cont u then update_for_cont_update now c3 else _).
  assert (E : X = lift (set_base_url base) Y).
  { unfold X, Y. destruct (u_cont u); [|reflexivity]. apply sb_cont. }
  rewrite E. destruct Y as [c4|]; cbn [bind lift]; [|reflexivity]. clear E X.
  change (c_seg_dur (set_base_url base c4)) with (c_seg_dur c4).
  set (X := match u_mod u with None => Ok (set_base_url base c4) | Some m => _ end).
  set (Y := match u_mod u with None => Ok c4 | Some m => _ end).
  assert (E : X = lift (set_base_url base) Y).
  { unfold X, Y. destruct (u_mod u); [|reflexivity]. apply sb_modulo. }
  rewrite E. destruct Y as [c5|]; cbn [bind lift]; [|reflexivity]. clear E X.
  rewrite sb_publish. destruct (update_publish_time now c5) as [c6|]; cbn [bind lift]; [|reflexivity].
  destruct (u_addloc u), (u_toff u); reflexivity.
Qed.


Lemma tail_base : forall now v u c c', finish_tail now v u c = Ok c' -> c_base_url c' = c_base_url c.
Proof.
  intros now v u c c' H. assert (E : set_base_url (c_base_url c) c = c) by (destruct c; reflexivity).
  pose proof (sb_tail (c_base_url c) now v u c) as K. rewrite E, H in K. cbn [lift] in K. injection K as K.
  rewrite K. reflexivity.
Qed.
Lemma option_base : forall now k v u u', url_option now k v u = Ok u' -> c_base_url (u_cfg u') = c_base_url (u_cfg u).
Proof.
  intros now k v u u' H. unfold url_option in H.
  repeat match type of H with
  | (if (?b || ?b')%bool then _ else _) = _ => destruct (b || b')%bool
  | (if ?b then _ else _) = _ => destruct b
  | int_opt _ _ _ = _ => unfold int_opt in H
  | flag_opt _ _ _ = _ => unfold flag_opt in H
  | bind ?x _ = _ => destruct x; cbn [bind] in H; [|discriminate]
  | match ?x with Ok _ => _ | Err _ => _ end = _ => destruct x
  | Err _ = _ => discriminate
  end; try (injection H as <-; reflexivity).
  all: injection H as <-; match goal with |- context [if ?b then _ else _] => destruct b end; reflexivity.
Qed.
Lemma fold_opts_base : forall now opts u u', fold_opts now opts u = Ok u' -> c_base_url (u_cfg u') = c_base_url (u_cfg u).
Proof.
  intros now opts. induction opts as [|(k, v) l IH]; intros u u' H; cbn [fold_opts] in H; [injection H as <-; reflexivity|].
  apply bind_inv in H. destruct H as (w & W & H). rewrite (IH _ _ H). eapply option_base. exact W.
Qed.
Lemma manifest_base : forall read base opts name file now c,
  Forall (fun kv => str_in (fst kv) url_cfg_keys = true) opts -> plain_name name ->
  process_url read base (manifest_parts opts name file) now = Ok c ->
  c_base_url c = base ++ join "/" (List.app (map opt_text opts) [name]) ++ "/".
Proof.
  intros read base opts name file now c F P H. rewrite process_url_manifest in H by assumption.
  apply bind_inv in H. destruct H as (u & U & H). apply bind_inv in H. destruct H as (v & V & H).
  rewrite (tail_base _ _ _ _ _ H). unfold filedata. cbn [u_cfg u_setcfg]. 
  change (c_base_url (u_cfg u) ++ join "/" (List.app (map opt_text opts) [name]) ++ "/" = base ++ join "/" (List.app (map opt_text opts) [name]) ++ "/").
  rewrite (fold_opts_base _ _ _ _ U). reflexivity.
Qed.

(** *** Splitting URLs *)
Lemma split_no_slash : forall s, no_slash s -> split_all "/" s = [s].
Proof.
  induction s as [|a s IH]; intros N; cbn [split_all]; [reflexivity|].
  unfold no_slash in *. cbn [list_ascii_of_string In] in N.
  destruct (Ascii.eqb_spec a "/"); [exfalso; apply N; left; assumption|].
  rewrite IH by tauto. reflexivity.
Qed.
Lemma split_app_slash : forall s r, no_slash s -> split_all "/" (s ++ "/" ++ r) = s :: split_all "/" r.
Proof.
  induction s as [|a s IH]; intros r N.
  - cbn [append split_all]. rewrite Ascii.eqb_refl. reflexivity.
  - unfold no_slash in *. cbn [list_ascii_of_string In] in N. change (String a s ++ "/" ++ r) with (String a (s ++ "/" ++ r)).
    cbn [split_all]. destruct (Ascii.eqb_spec a "/"); [exfalso; apply N; left; assumption|].
    rewrite IH by tauto. reflexivity.
Qed.
Lemma split_join : forall l, l <> [] -> Forall no_slash l -> split_all "/" (join "/" l) = l.
Proof.
  intros l. induction l as [|s l IH]; intros N F; [contradiction|]. inversion F as [|? ? F1 F2]; subst.
  destruct l as [|s' l]; [apply split_no_slash; exact F1|].
  change (join "/" (s :: s' :: l)) with (s ++ "/" ++ join "/" (s' :: l)).
  rewrite split_app_slash by exact F1. f_equal. apply IH; [discriminate|exact F2].
Qed.
Lemma join_app : forall a b, a <> [] -> b <> [] -> join "/" (List.app a b) = join "/" a ++ "/" ++ join "/" b.
Proof.
  intros a b NA NB. induction a as [|x a IH]; [contradiction|]. destruct a as [|y a].
  - destruct b; [contradiction|reflexivity].
  - change (join "/" (List.app (x :: y :: a) b)) with (x ++ "/" ++ join "/" (List.app (y :: a) b)).
    rewrite IH by discriminate. change (join "/" (x :: y :: a)) with (x ++ "/" ++ join "/" (y :: a)).
    rewrite <- !string_app_assoc. reflexivity.
Qed.

(** *** Rewriting of relative times in the URL of the manifest *)
Fixpoint tails (l : list string) : string := match l with [] => "" | p :: r => "/" ++ p ++ tails r end.
Lemma join_tails : forall l p, join "/" (p :: l) = p ++ tails l.
Proof.
  intros l. induction l as [|q l IH]; intros p; [cbn [join tails]; rewrite string_app_nil_r; reflexivity|].
  change (join "/" (p :: q :: l)) with (p ++ "/" ++ join "/" (q :: l)). rewrite IH. reflexivity.
Qed.
Lemma sub_skip : forall k n s1 s2, sub_rel k n (s1 ++ s2) (String.length s1) = sub_rel k n s2 0.
Proof. intros k n s1 s2. induction s1 as [|a s1 IH]; [reflexivity|]. cbn [append String.length sub_rel]. exact IH. Qed.
Lemma sub_plain : forall k n s r, no_slash s -> sub_rel ("/" ++ k) n (s ++ r) 0 = s ++ sub_rel ("/" ++ k) n r 0.
Proof.
  intros k n s r N. induction s as [|a s IH]; [reflexivity|]. unfold no_slash in *. cbn [list_ascii_of_string In] in N.
  change (String a s ++ r) with (String a (s ++ r)). cbn [append sub_rel starts_with].
  destruct (Ascii.eqb_spec "/" a); [exfalso; apply N; left; congruence|]. cbn [andb].
  f_equal. apply IH. tauto.
Qed.
Lemma starts_app : forall k p r, no_slash k -> (r = "" \/ exists r', r = "/" ++ r') -> starts_with k (p ++ r) = starts_with k p.
Proof.
  intros k. induction k as [|a k IH]; intros p r N R; [destruct p; reflexivity|].
  unfold no_slash in *. cbn [list_ascii_of_string In] in N.
  destruct p as [|b p].
  - destruct R as [-> | (r' & ->)]; [reflexivity|]. cbn [append starts_with].
    destruct (Ascii.eqb_spec a "/"); [exfalso; apply N; left; assumption|reflexivity].
  - cbn [append starts_with]. rewrite IH by tauto. reflexivity.
Qed.
Lemma tails_start : forall l, tails l = "" \/ exists r', tails l = "/" ++ r'.
Proof. intros [|p l]; [left; reflexivity|right; eexists; reflexivity]. Qed.
Lemma starts_split : forall k p, (forall c, In c (list_ascii_of_string k) -> c <> "_"%char) ->
  starts_with (k ++ "_") p = true -> exists v, p = k ++ "_" ++ v /\ split_first "_" p = Some (k, v).
Proof.
  intros k. induction k as [|a k IH]; intros p N H.
  - destruct p as [|b p]; [discriminate|]. cbn [append starts_with] in H. apply andb_prop in H. destruct H as (H & _).
    apply Ascii.eqb_eq in H. subst b. exists p. split; reflexivity.
  - destruct p as [|b p]; [discriminate|]. cbn [append starts_with] in H. apply andb_prop in H. destruct H as (H & K).
    apply Ascii.eqb_eq in H. subst b. cbn [list_ascii_of_string In] in N.
    destruct (IH p ltac:(auto) K) as (v & -> & S). exists v. split; [reflexivity|].
    cbn [append split_first]. destruct (Ascii.eqb_spec a "_"); [exfalso; apply (N a); auto|]. cbn [append] in S. rewrite S. reflexivity.
Qed.
Lemma starts_self : forall k v, starts_with k (k ++ v) = true.
Proof. intros k v. induction k as [|a k IH]; [reflexivity|]. cbn. rewrite Ascii.eqb_refl. exact IH. Qed.
Lemma drop_self : forall k v, drop (String.length k) (k ++ v) = v.
Proof. intros k v. induction k as [|a k IH]; [reflexivity|]. exact IH. Qed.
Lemma count_digits : forall s r, all_digits s = true -> (r = "" \/ exists r', r = "/" ++ r') -> count_rel (s ++ r) = String.length s.
Proof.
  intros s r D R. induction s as [|a s IH].
  - destruct R as [-> | (r' & ->)]; reflexivity.
  - cbn [all_digits] in D. cbn [append count_rel String.length]. unfold rel_char.
    destruct (digit_val a); [|discriminate]. rewrite orb_true_r, IH by exact D. reflexivity.
Qed.
Lemma count_print : forall z r, (r = "" \/ exists r', r = "/" ++ r') -> count_rel (print_Z z ++ r) = String.length (print_Z z).
Proof.
  intros z r R. unfold print_Z. destruct (z <? 0) eqn:E.
  - cbn [append count_rel String.length]. change (rel_char "-") with true. cbn iota.
    rewrite count_digits; [reflexivity|apply print_nat_spec; lia|exact R].
  - apply count_digits; [apply print_nat_spec; lia|exact R].
Qed.
Lemma print_Z_length : forall z, exists n, String.length (print_Z z) = S n.
Proof.
  intros z. destruct (print_Z z) as [|a s] eqn:E; [exfalso; exact (print_Z_nonempty z E)|]. exists (String.length s). reflexivity.
Qed.

Definition sub_part (k new p : string) : string :=
  match split_first "_" p with Some (k', _) => if String.eqb k' k then new else p | None => p end.
Definition printed (k p : string) : Prop := forall v, split_first "_" p = Some (k, v) -> exists z, v = print_Z z.
Lemma sub_tails : forall k new l,
  no_slash k -> (forall c, In c (list_ascii_of_string k) -> c <> "_"%char) ->
  Forall no_slash l -> Forall (printed k) l ->
  sub_rel ("/" ++ k ++ "_") ("/" ++ new) (tails l) 0 = tails (map (sub_part k new) l).
Proof.
  intros k new l NK UK NS PR. induction l as [|p l IH]; [reflexivity|].
  inversion NS as [|? ? NS1 NS2]; inversion PR as [|? ? PR1 PR2]; subst. specialize (IH NS2 PR2).
  cbn [map tails].
  assert (NK' : no_slash (k ++ "_")).
  { unfold no_slash in *. intros I.
    clear - NK I. induction k as [|a k IH]; [cbn in I; destruct I as [I|[]]; discriminate|].
    cbn [append list_ascii_of_string In] in *. destruct I as [I|I]; [apply NK; left; exact I|apply IH; tauto]. }
  assert (SW : starts_with ("/" ++ k ++ "_") ("/" ++ p ++ tails l) = starts_with (k ++ "_") p).
  { change ("/" ++ k ++ "_") with (String "/" (k ++ "_")). change ("/" ++ p ++ tails l) with (String "/" (p ++ tails l)).
    cbn [starts_with]. rewrite Ascii.eqb_refl. cbn [andb]. apply starts_app; [exact NK'|apply tails_start]. }
  destruct (starts_with (k ++ "_") p) eqn:E.
  - destruct (starts_split k p UK E) as (v & -> & SP). destruct (PR1 v SP) as (z & ->).
    unfold sub_part at 1. rewrite SP, String.eqb_refl.
    set (s := "/" ++ (k ++ "_" ++ print_Z z) ++ tails l) in *.
    assert (S1 : s = (("/" ++ k ++ "_") ++ (print_Z z ++ tails l))%string).
    { unfold s. rewrite !string_app_assoc. reflexivity. }
    assert (C : count_rel (drop (String.length ("/" ++ k ++ "_")) s) = String.length (print_Z z)).
    { rewrite S1, drop_self. apply count_print. apply tails_start. }
    assert (S2 : exists s', s = String "/" s') by (unfold s; eexists; reflexivity). destruct S2 as (s' & S2).
    assert (S3 : s' = (k ++ "_" ++ print_Z z) ++ tails l) by (unfold s in S2; cbn [append] in S2; injection S2 as S2; symmetry; exact S2).
    rewrite S2. cbn [sub_rel]. rewrite <- S2, SW, C. destruct (print_Z_length z) as (n & Ln). rewrite Ln.
    replace (String.length ("/" ++ k ++ "_") + S n - 1)%nat with (String.length (k ++ "_" ++ print_Z z)).
    2: { clear - Ln. assert (A : forall a b, String.length (a ++ b) = (String.length a + String.length b)%nat).
         { intros a b. induction a as [|c a IH]; [reflexivity|]. cbn. rewrite IH. reflexivity. }
         rewrite !A, Ln. cbn [String.length]. lia. }
    rewrite S3, sub_skip, IH. rewrite !string_app_assoc. reflexivity.
  - assert (SP : sub_part k new p = p).
    { unfold sub_part. destruct (split_first "_" p) as [(k', v)|] eqn:F; [|reflexivity].
      destruct (String.eqb_spec k' k) as [->|]; [|reflexivity]. exfalso.
      assert (Q : p = k ++ "_" ++ v).
      { clear - F. revert k v F. induction p as [|a p IH]; intros k v F; [discriminate|]. cbn [split_first] in F.
        destruct (Ascii.eqb_spec a "_") as [->|]; [injection F as <- <-; reflexivity|].
        destruct (split_first "_" p) as [(x, y)|]; [|discriminate]. injection F as <- <-.
        rewrite (IH x y eq_refl) at 1. reflexivity. }
      subst p. rewrite <- string_app_assoc, starts_self in E. discriminate. }
    rewrite SP. change ("/" ++ p ++ tails l) with (String "/" (p ++ tails l)) in *. cbn [sub_rel]. rewrite SW.
    rewrite sub_plain by exact NS1. rewrite IH. reflexivity.
Qed.

Lemma plain_sub : forall k new p, str_in k url_cfg_keys = true -> plain_name p -> sub_part k new p = p /\ printed k p.
Proof.
  intros k new p K P. unfold plain_name in P. unfold sub_part, printed. destruct (split_first "_" p) as [(k', v)|]; [|split; [reflexivity|discriminate]].
  destruct (String.eqb_spec k' k) as [->|N]; [congruence|]. split; [reflexivity|]. intros v' E. congruence.
Qed.
Lemma opt_split : forall kv, str_in (fst kv) url_cfg_keys = true -> split_first "_" (opt_text kv) = Some kv.
Proof.
  intros (k, v) H. unfold opt_text. cbn [fst snd] in *. apply split_first_key. apply keys_no_underscore. exact H.
Qed.
Lemma map_plain : forall k new l, str_in k url_cfg_keys = true -> Forall plain_name l -> map (sub_part k new) l = l.
Proof.
  intros k new l K F. induction F as [|p l P F IH]; [reflexivity|]. cbn [map]. rewrite IH.
  rewrite (proj1 (plain_sub k new p K P)). reflexivity.
Qed.
Lemma printed_plain : forall k l, str_in k url_cfg_keys = true -> Forall plain_name l -> Forall (printed k) l.
Proof. intros k l K F. eapply Forall_impl; [|exact F]. cbv beta. intros p P. apply (plain_sub k "" p K P). Qed.

Lemma number_no_slash : forall k z, no_slash k -> no_slash (k ++ print_Z z).
Proof.
  intros k z Nk I. assert (D : forall s, all_digits s = true -> no_slash s).
    { clear. intros s. induction s as [|x s IH]; intros D I; [exact I|]. cbn [all_digits] in D. cbn [list_ascii_of_string In] in I.
      destruct (digit_val x) eqn:E; [|discriminate]. destruct I as [->|I]; [discriminate E|]. exact (IH D I). }
    assert (Dz : no_slash (print_Z z)).
    { unfold print_Z. destruct (z <? 0) eqn:E.
      - intros J. cbn [list_ascii_of_string In] in J. destruct J as [J|J]; [discriminate|]. revert J. apply D. apply print_nat_spec. lia.
      - apply D. apply print_nat_spec. lia. }
    clear D. revert I. induction k as [|x k IH]; intros I; [exact (Dz I)|]. unfold no_slash in *. cbn [append list_ascii_of_string In] in *.
    destruct I as [I|I]; [apply Nk; left; exact I|]. apply IH; [tauto|exact I].
Qed.
Lemma location_full : forall c b0 bparts opts name file a b,
  c_start_time c = Some a -> c_stop_time c = Some b ->
  no_slash b0 -> Forall no_slash bparts -> Forall plain_name bparts ->
  Forall (fun kv => str_in (fst kv) url_cfg_keys = true) opts -> Forall canonical opts -> Forall no_slash (map opt_text opts) ->
  plain_name name -> no_slash name -> plain_name file -> no_slash file ->
  location_url c (join "/" (b0 :: bparts ++ manifest_parts opts name file)%list) =
    Ok (join "/" (b0 :: bparts ++ manifest_parts (map (absolute a b) opts) name file)%list).
Proof.
  intros c b0 bparts opts name file a b A B N0 NB PB F C NO PN NN PF NF.
  unfold location_url. rewrite A, B. f_equal.
  assert (KS : str_in "startrel" url_cfg_keys = true) by reflexivity.
  assert (KT : str_in "stoprel" url_cfg_keys = true) by reflexivity.
  assert (US : forall c, In c (list_ascii_of_string "startrel") -> c <> "_"%char) by (apply keys_no_underscore; exact KS).
  assert (UT : forall c, In c (list_ascii_of_string "stoprel") -> c <> "_"%char) by (apply keys_no_underscore; exact KT).
  assert (SS : no_slash "startrel") by (intros I; cbn in I; intuition discriminate).
  assert (ST : no_slash "stoprel") by (intros I; cbn in I; intuition discriminate).
  rewrite !join_tails.
  change "/startrel_" with ("/" ++ "startrel" ++ "_"). change "/stoprel_" with ("/" ++ "stoprel" ++ "_").
  change ("/start_" ++ print_Z a) with ("/" ++ ("start_" ++ print_Z a)). change ("/stop_" ++ print_Z b) with ("/" ++ ("stop_" ++ print_Z b)).
  unfold manifest_parts.
  assert (P1 : Forall (printed "startrel") (map opt_text opts) /\ Forall (printed "stoprel") (map opt_text opts)).
  { clear - F C. induction F as [|kv l K F IH]; [split; constructor|]. inversion C as [|? ? C1 C2]; subst. destruct (IH C2) as (I1 & I2).
    cbn [map]. split; constructor; auto; intros v E; rewrite opt_split in E by exact K; injection E as E;
      unfold canonical in C1; rewrite E in C1; cbn [fst snd] in C1; apply C1; auto. }
  destruct P1 as (PS & PT).
  assert (M1 : map (sub_part "startrel" ("start_" ++ print_Z a)) (bparts ++ map opt_text opts ++ [name; file])%list =
    (bparts ++ map (sub_part "startrel" ("start_" ++ print_Z a)) (map opt_text opts) ++ [name; file])%list).
  { rewrite !map_app, map_plain by assumption. f_equal. f_equal. apply map_plain; [exact KS|]. repeat constructor; assumption. }
  set (o1 := map (sub_part "startrel" ("start_" ++ print_Z a)) (map opt_text opts)) in *.
  assert (NA := number_no_slash).
  assert (N1 : Forall no_slash o1 /\ Forall (printed "stoprel") o1).
  { unfold o1. clear - F NO PT NA. induction F as [|kv l K F IH]; [split; constructor|]. cbn [map] in *.
    inversion NO; inversion PT; subst. destruct (IH H2 H6) as (I1 & I2).
    split; constructor; auto; unfold sub_part; rewrite opt_split by exact K; destruct kv as (k, v);
      destruct (String.eqb_spec k "startrel") as [->|]; auto.
    - apply NA. intros I; cbn in I; intuition discriminate.
    - intros v' E. cbn in E. discriminate. }
  destruct N1 as (N1 & P1).
  assert (TS : forall X, sub_rel ("/" ++ "startrel" ++ "_") X (b0 ++ tails (bparts ++ map opt_text opts ++ [name; file])%list) 0 =
     b0 ++ sub_rel ("/" ++ "startrel" ++ "_") X (tails (bparts ++ map opt_text opts ++ [name; file])%list) 0).
  { intros X. apply sub_plain. exact N0. }
  rewrite TS. rewrite sub_tails; auto.
  2: { repeat (apply Forall_app; split); auto. }
  2: { repeat (apply Forall_app; split); auto using printed_plain. }
  rewrite M1. rewrite sub_plain by exact N0. f_equal.
  rewrite sub_tails; auto.
  2: { repeat (apply Forall_app; split); auto. }
  2: { repeat (apply Forall_app; split); auto using printed_plain. }
  f_equal. rewrite !map_app. rewrite map_plain by assumption. f_equal.
  rewrite (map_plain _ _ [name; file]) by (auto; repeat constructor; auto). f_equal.
  unfold o1. clear - F KT. induction F as [|kv l K F IH]; [reflexivity|]. cbn [map]. rewrite IH. f_equal.
  unfold sub_part at 2. rewrite opt_split by exact K. destruct kv as (k, v). unfold absolute. cbn [fst].
  destruct (String.eqb_spec k "startrel") as [->|N].
  - reflexivity.
  - unfold sub_part. rewrite opt_split by exact K. destruct (String.eqb_spec k "stoprel") as [->|]; reflexivity.
Qed.

(** *** Reloading the location *)
Lemma option_loc : forall now k v u u', url_option now k v u = Ok u' -> c_add_loc (u_cfg u') = c_add_loc (u_cfg u).
Proof.
  intros now k v u u' H. unfold url_option in H.
  repeat match type of H with
  | (if (?b || ?b')%bool then _ else _) = _ => destruct (b || b')%bool
  | (if ?b then _ else _) = _ => destruct b
  | int_opt _ _ _ = _ => unfold int_opt in H
  | flag_opt _ _ _ = _ => unfold flag_opt in H
  | bind ?x _ = _ => destruct x; cbn [bind] in H; [|discriminate]
  | match ?x with Ok _ => _ | Err _ => _ end = _ => destruct x
  | Err _ = _ => discriminate
  end; try (injection H as <-; reflexivity).
  all: injection H as <-; match goal with |- context [if ?b then _ else _] => destruct b end; reflexivity.
Qed.
Lemma fold_opts_loc : forall now opts u u', fold_opts now opts u = Ok u' -> c_add_loc (u_cfg u') = c_add_loc (u_cfg u).
Proof.
  intros now opts. induction opts as [|(k, v) l IH]; intros u u' H; cbn [fold_opts] in H; [injection H as <-; reflexivity|].
  apply bind_inv in H. destruct H as (w & W & H). rewrite (IH _ _ H). eapply option_loc. exact W.
Qed.

Record reloaded (a b : Z) (u u' : ustate) : Prop := {
  rl_cfg : u_cfg u' = u_cfg u;
  rl_durs : u_durs u' = u_durs u;
  rl_toff : u_toff u' = u_toff u;
  rl_cont : u_cont u' = u_cont u;
  rl_mod : u_mod u' = u_mod u;
  rl_loc : u_addloc u' = false;
  rl_start : u_start u' = u_start u \/ (u_start u <> None /\ u_start u' = Some a);
  rl_stop : u_stop u' = u_stop u \/ (u_stop u <> None /\ u_stop u' = Some b)
}.

Lemma option_reloaded : forall now1 now2 a b kv u w u', steady kv -> str_in (fst kv) url_cfg_keys = true ->
  reloaded a b u u' -> calm u ->
  url_option now1 (fst kv) (snd kv) u = Ok w ->
  exists w', url_option now2 (fst (absolute a b kv)) (snd (absolute a b kv)) u' = Ok w' /\ reloaded a b w w' /\ calm w.
Proof.
  intros now1 now2 a b (k, v) u w u' St K R C H. unfold steady in St. cbn [fst snd In] in *.
  unfold absolute. cbn [fst snd].
  destruct (String.eqb_spec k "startrel") as [->|N1]; [|destruct (String.eqb_spec k "stoprel") as [->|N2]]; cbn [fst snd].
  - change (url_option now1 "startrel" v u) with
      (let* z := py_int v in Ok (mkU (u_cfg u) (Some (now1 + z)) (u_stop u) (u_durs u) (u_toff u) (u_cont u) (u_mod u) true)) in H.
    change (url_option now2 "start" (print_Z a) u') with
      (let* z := py_int (print_Z a) in Ok (mkU (u_cfg u') (Some z) (u_stop u') (u_durs u') (u_toff u') (u_cont u') (u_mod u') (u_addloc u'))).
    apply bind_inv in H. destruct H as (z & _ & H). injection H as <-. rewrite py_int_print. cbn [bind].
    eexists. split; [reflexivity|]. split; [|exact C].
    destruct R. constructor; cbn; auto. right. split; [discriminate|reflexivity].
  - change (url_option now1 "stoprel" v u) with
      (let* z := py_int v in Ok (mkU (u_cfg u) (u_start u) (Some (now1 + z)) (u_durs u) (u_toff u) (u_cont u) (u_mod u) true)) in H.
    change (url_option now2 "stop" (print_Z b) u') with
      (let* z := py_int (print_Z b) in Ok (mkU (u_cfg u') (u_start u') (Some z) (u_durs u') (u_toff u') (u_cont u') (u_mod u') (u_addloc u'))).
    apply bind_inv in H. destruct H as (z & _ & H). injection H as <-. rewrite py_int_print. cbn [bind].
    eexists. split; [reflexivity|]. split; [|exact C].
    destruct R. constructor; cbn; auto. right. split; [discriminate|reflexivity].
  - assert (NC : ~ In k clock_keys).
    { unfold clock_keys. cbn [In]. intuition. }
    destruct (url_option_clock now1 now2 k v u w NC C H) as (H2 & C2).
    assert (G : exists w', url_option now2 k v u' = Ok w' /\ reloaded a b w w'); [|destruct G as (w' & G1 & G2); eauto].
    clear H C2 C NC now1. destruct u as [cf st sp du tf co mo al], u' as [cf' st' sp' du' tf' co' mo' al'].
    destruct R as [R1 R2 R3 R4 R5 R6 R7 R8]. cbn in R1, R2, R3, R4, R5, R6, R7, R8. subst cf' du' tf' co' mo' al'.
    unfold url_option in *. cbn [u_cfg u_start u_stop u_durs u_toff u_cont u_mod u_addloc] in *.
    destruct (k =? "startrel")%string eqn:E1; [apply String.eqb_eq in E1; contradiction|].
    destruct (k =? "stoprel")%string eqn:E2; [apply String.eqb_eq in E2; contradiction|].
    destruct (k =? "dur")%string eqn:E3; [apply String.eqb_eq in E3; subst; tauto|].
    destruct (k =? "modulo")%string eqn:E4; [apply String.eqb_eq in E4; subst; tauto|].
    destruct (k =? "tfdt")%string eqn:E5; [apply String.eqb_eq in E5; subst; tauto|].
    destruct (k =? "cont")%string eqn:E6; [apply String.eqb_eq in E6; subst; tauto|].
    clear E1 E2 E3 E4 E5 E6 St N1 N2 K.
    repeat match type of H2 with
    | (if (?b || ?b')%bool then _ else _) = _ => destruct (b || b')%bool
    | (if ?b then _ else _) = _ => destruct b
    | int_opt _ _ _ = _ => unfold int_opt in *
    | flag_opt _ _ _ = _ => unfold flag_opt in *
    | bind ?x _ = _ => destruct x; cbn [bind] in *; [|discriminate]
    | match ?x with Ok _ => _ | Err _ => _ end = _ => destruct x
    | Err _ = _ => discriminate
    end; injection H2 as <-; (eexists; split; [reflexivity|]); try match goal with |- context [if ?b then _ else _] => destruct b end;
    (constructor; cbn; solve [reflexivity | assumption | left; reflexivity]).
Qed.
Lemma fold_reloaded : forall now1 now2 a b opts u w u', Forall steady opts -> Forall (fun kv => str_in (fst kv) url_cfg_keys = true) opts ->
  reloaded a b u u' -> calm u -> fold_opts now1 opts u = Ok w ->
  exists w', fold_opts now2 (map (absolute a b) opts) u' = Ok w' /\ reloaded a b w w' /\ calm w.
Proof.
  intros now1 now2 a b opts. induction opts as [|kv opts IH]; intros u w u' S K R C H.
  - cbn in *. injection H as <-. exists u'. auto.
  - inversion S; inversion K; subst. cbn [fold_opts map] in *. destruct kv as (k, v).
    apply bind_inv in H. destruct H as (u1 & H1 & H).
    destruct (option_reloaded now1 now2 a b (k, v) u u1 u' ltac:(assumption) ltac:(assumption) R C H1) as (u1' & G1 & R1 & C1).
    destruct (absolute a b (k, v)) as (k', v') eqn:E. cbn [fst snd] in G1. rewrite G1. cbn [bind].
    eapply IH; eauto.
Qed.
Lemma option_start : forall now k v u u', url_option now k v u = Ok u' -> c_start_time (u_cfg u') = c_start_time (u_cfg u).
Proof.
  intros now k v u u' H. unfold url_option in H.
  repeat match type of H with
  | (if (?b || ?b')%bool then _ else _) = _ => destruct (b || b')%bool
  | (if ?b then _ else _) = _ => destruct b
  | int_opt _ _ _ = _ => unfold int_opt in H
  | flag_opt _ _ _ = _ => unfold flag_opt in H
  | bind ?x _ = _ => destruct x; cbn [bind] in H; [|discriminate]
  | match ?x with Ok _ => _ | Err _ => _ end = _ => destruct x
  | Err _ = _ => discriminate
  end; try (injection H as <-; reflexivity).
  all: injection H as <-; match goal with |- context [if ?b then _ else _] => destruct b end; reflexivity.
Qed.
Lemma fold_opts_start : forall now opts u u', fold_opts now opts u = Ok u' -> c_start_time (u_cfg u') = c_start_time (u_cfg u).
Proof.
  intros now opts. induction opts as [|(k, v) l IH]; intros u u' H; cbn [fold_opts] in H; [injection H as <-; reflexivity|].
  apply bind_inv in H. destruct H as (w & W & H). rewrite (IH _ _ H). eapply option_start. exact W.
Qed.
Lemma option_stop : forall now k v u u', url_option now k v u = Ok u' -> c_stop_time (u_cfg u') = c_stop_time (u_cfg u).
Proof.
  intros now k v u u' H. unfold url_option in H.
  repeat match type of H with
  | (if (?b || ?b')%bool then _ else _) = _ => destruct (b || b')%bool
  | (if ?b then _ else _) = _ => destruct b
  | int_opt _ _ _ = _ => unfold int_opt in H
  | flag_opt _ _ _ = _ => unfold flag_opt in H
  | bind ?x _ = _ => destruct x; cbn [bind] in H; [|discriminate]
  | match ?x with Ok _ => _ | Err _ => _ end = _ => destruct x
  | Err _ = _ => discriminate
  end; try (injection H as <-; reflexivity).
  all: injection H as <-; match goal with |- context [if ?b then _ else _] => destruct b end; reflexivity.
Qed.
Lemma fold_opts_stop : forall now opts u u', fold_opts now opts u = Ok u' -> c_stop_time (u_cfg u') = c_stop_time (u_cfg u).
Proof.
  intros now opts. induction opts as [|(k, v) l IH]; intros u u' H; cbn [fold_opts] in H; [injection H as <-; reflexivity|].
  apply bind_inv in H. destruct H as (w & W & H). rewrite (IH _ _ H). eapply option_stop. exact W.
Qed.

Lemma quantize_idem : forall n d a, 0 < d -> quantize n d = Ok a -> quantize a d = Ok a.
Proof.
  intros n d a D H. rewrite quantize_ok in * by exact D. injection H as <-. rewrite Z.div_mul by lia. reflexivity.
Qed.
Lemma stop_idem : forall s d b, 0 < d -> 0 <= b -> quantize s d = Ok b ->
  quantize (py_int_of_Q (inject_Z b + (999 # 1000) * inject_Z d)%Q) d = Ok b.
Proof.
  intros s d b D B H. rewrite quantize_ok in * by exact D. injection H as H.
  assert (D1 : (1 <= inject_Z d)%Q) by (change 1%Q with (inject_Z 1); rewrite <- Zle_Qle; lia).
  assert (B1 : (0 <= inject_Z b)%Q) by (change 0%Q with (inject_Z 0); rewrite <- Zle_Qle; lia).
  rewrite py_int_of_Q_nonneg by lra.
  assert (L : b <= Qfloor (inject_Z b + (999 # 1000) * inject_Z d)) by (apply Qfloor_iff; lra).
  assert (U : Qfloor (inject_Z b + (999 # 1000) * inject_Z d) < b + d) by (apply Qfloor_lt_iff; rewrite inject_Z_plus; lra).
  set (x := Qfloor _) in *. clearbody x. f_equal. subst b.
  set (q := s / d) in *. clearbody q.
  assert (E : x / d = q); [|rewrite E; reflexivity]. symmetry. apply Z.div_unique with (x - q * d); lia.
Qed.

Lemma tail_reloaded : forall now1 now2 v u u' c c1 a b,
  calm u -> c_tfdt32 c = false -> c_add_loc c = false -> c_start_time c = None -> c_stop_time c = None ->
  reloaded a b u u' -> finish_tail now1 v u c = Ok c1 ->
  c_start_time c1 = Some a -> c_stop_time c1 = Some b -> 0 < c_seg_dur c1 -> 0 <= b ->
  exists p, finish_tail now2 v u' c = Ok (set_publish_time p (set_add_loc false c1)).
Proof.
  intros now1 now2 v u u' c c1 a b (A1 & A2 & A3 & _) TF AL ST0 SP0 [R1 R2 R3 R4 R5 R6 R7 R8] H SA SB D B0.
  unfold finish_tail in *. rewrite R2, R3, R4, R5, R6, A1, A2, A3 in *.
  assert (T : c_tfdt32 (update_with_vodcfg c v) = false /\ c_add_loc (update_with_vodcfg c v) = false /\
     c_start_time (update_with_vodcfg c v) = None /\ c_stop_time (update_with_vodcfg c v) = None).
  { unfold update_with_vodcfg. clear H. destruct c. cbn in *. destruct c_tsbd; cbn; auto. }
  remember (update_with_vodcfg c v) as c0 eqn:E0. clear E0 c TF AL ST0 SP0. destruct T as (TF & AL & ST0 & SP0).
  assert (FIN : forall c2, (let* c3 := if c_tfdt32 c2 then update_for_tfdt32 now1 c2 else Ok c2 in
      let* c4 := update_publish_time now1 c3 in
      let c5 := if u_addloc u then set_add_loc true c4 else c4 in Ok match u_toff u with Some t => set_timeoffset (Some t) c5 | None => c5 end) = Ok c1 ->
     c_tfdt32 c2 = false -> c_add_loc c2 = false ->
     c_start_time c1 = c_start_time c2 /\ c_stop_time c1 = c_stop_time c2 /\ c_seg_dur c1 = c_seg_dur c2 /\
     exists p, (let* c3 := if c_tfdt32 c2 then update_for_tfdt32 now2 c2 else Ok c2 in
       let* c4 := update_publish_time now2 c3 in
       Ok match u_toff u with Some t => set_timeoffset (Some t) c4 | None => c4 end) = Ok (set_publish_time p (set_add_loc false c1))).
  { clear. intros c2 H T L. rewrite T in *. cbn [bind] in *.
    destruct (update_publish_time now1 c2) as [c3|] eqn:P; cbn [bind] in H; [|discriminate].
    destruct (publish_clock now1 now2 c2 c3 P) as (p & P2). rewrite P2. cbn [bind].
    assert (K : exists q, c3 = set_publish_time q c2).
    { clear H P2. unfold update_publish_time in P. destruct (c_ast c2 =? 0); [injection P as <-; eauto|].
      destruct (c_mup c2); [|discriminate]. apply bind_inv in P. destruct P as (q0 & _ & P). injection P as <-. eauto. }
    destruct K as (q & ->). clear P P2. cbv zeta in H. injection H as <-.
    destruct (u_toff u), (u_addloc u); (split; [destruct c2; reflexivity|]); (split; [destruct c2; reflexivity|]); (split; [destruct c2; reflexivity|]);
      exists p; f_equal; destruct c2; cbn in L; subst; reflexivity. }
  destruct (u_start u) as [s|] eqn:US.
  2: { cbn [bind] in H. destruct (FIN c0 H TF AL) as (F1 & _). congruence. }
  apply bind_inv in H. destruct H as (c2 & P & H).
  unfold process_start_time in P.
  apply bind_inv in P. destruct P as (a0 & QA & P).
  set (m := match c_mup (set_start_time (Some a0) (set_ast a0 c0)) with
        | Some _ => set_start_time (Some a0) (set_ast a0 c0)
        | None => set_mup (Some (inject_Z 10)) (set_start_time (Some a0) (set_ast a0 c0)) end) in *.
  assert (M : c_tfdt32 m = false /\ c_add_loc m = false /\ c_start_time m = Some a0 /\ c_stop_time m = None /\ c_seg_dur m = c_seg_dur c0).
  { unfold m. clear - TF AL SP0. destruct c0. cbn in *. destruct c_mup; cbn; auto. }
  destruct M as (M1 & M2 & M3 & M4 & M5). cbn [bind] in P.
  destruct (u_stop u) as [t|] eqn:UT.
  2: { injection P as <-. destruct (FIN m H M1 M2) as (_ & F2 & _). congruence. }
  apply bind_inv in P. destruct P as (b0 & QB & P).
  set (c2' := set_tsbd (Some (b0 - a0)) (set_mpdur (Some (inject_Z (b0 - a0))) (set_stop_time (Some b0) m))) in *. injection P as <-.
  assert (N : c_tfdt32 c2' = false /\ c_add_loc c2' = false /\ c_start_time c2' = Some a0 /\ c_stop_time c2' = Some b0 /\ c_seg_dur c2' = c_seg_dur c0).
  { unfold c2'. clear - M1 M2 M3 M5. clearbody m. destruct m. cbn in *. auto. }
  destruct N as (N1 & N2 & N3 & N4 & N5).
  destruct (FIN c2' H N1 N2) as (F1 & F2 & F3 & p & F4).
  rewrite SA, N3 in F1. injection F1 as <-. rewrite SB, N4 in F2. injection F2 as <-. rewrite F3, N5 in D.
  exists p. rewrite <- F4.
  assert (QA' : exists s', u_start u' = Some s' /\ quantize s' (c_seg_dur c0) = Ok a).
  { destruct R7 as [R7|(_ & R7)]; rewrite R7; eexists; (split; [reflexivity|]); [exact QA|]. eapply quantize_idem; eauto. }
  assert (QB' : exists t', u_stop u' = Some t' /\ quantize (py_int_of_Q (inject_Z t' + (999 # 1000) * inject_Z (c_seg_dur c0))%Q) (c_seg_dur c0) = Ok b).
  { destruct R8 as [R8|(_ & R8)]; rewrite R8; eexists; (split; [reflexivity|]); [exact QB|]. eapply stop_idem; eauto. }
  destruct QA' as (s' & -> & QA'). destruct QB' as (t' & -> & QB').
  unfold process_start_time. rewrite QA'. cbn [bind]. fold m. rewrite QB'. cbn [bind]. fold c2'. reflexivity.
Qed.

Lemma manifest_reloaded : forall u u' opts opts' name file, u_cfg u' = u_cfg u ->
  exists base2, set_reps [] (u_cfg (filedata u' opts' name "" file)) = set_base_url base2 (set_reps [] (u_cfg (filedata u opts name "" file))).
Proof. intros u u' opts opts' name file E. unfold filedata. cbn [u_cfg u_setcfg]. rewrite E. destruct (u_cfg u). eexists. reflexivity. Qed.
Lemma manifest_fields : forall u opts name file, let cf := set_reps [] (u_cfg (filedata u opts name "" file)) in
  c_tfdt32 cf = c_tfdt32 (u_cfg u) /\ c_add_loc cf = c_add_loc (u_cfg u) /\ c_start_time cf = c_start_time (u_cfg u) /\
     c_stop_time cf = c_stop_time (u_cfg u).
Proof. intros u opts name file. unfold filedata. cbn [u_cfg u_setcfg]. destruct (u_cfg u). repeat split. Qed.
