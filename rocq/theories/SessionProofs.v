(** Two URLs with the same options and content name give the same
    configuration, except for the file-related fields: the manifest URL
    opts/name/file and the media URL opts/name/rep/file. *)
From Verif Require Import Base BaseProofs ConfigModel ProxyModel ProxySpec ConfigProofs.
Open Scope Z_scope.

(** The same session, another file. *)
Definition refile (rp file : string) (l : list rep) (c : config) : config :=
  set_reps l (set_ext (snd (splitext file)) (set_filename file (set_rel_path rp c))).
Definition lift {A B} (f : A -> B) (r : result A) : result B := match r with Ok a => Ok (f a) | Err e => Err e end.

(** The URL of a manifest. *)
Definition manifest_parts (opts : list (string * string)) (name file : string) : list string :=
  map opt_text opts ++ [name; file].

Section Stages.
Variables (rp file : string) (l : list rep).
Notation rf := (refile rp file l).

Lemma rf_vodcfg : forall c v, update_with_vodcfg (rf c) v = rf (update_with_vodcfg c v).
Proof. intros. unfold update_with_vodcfg. change (c_tsbd (rf c)) with (c_tsbd c). destruct (c_tsbd c); reflexivity. Qed.
Lemma rf_aet : forall now pairs c, update_with_aet now pairs (rf c) = lift rf (update_with_aet now pairs c).
Proof.
  intros. unfold update_with_aet. change (c_mup (rf c)) with (c_mup c).
  destruct (rev pairs) as [|(a, b) r]; [reflexivity|]. destruct (c_mup c); [|reflexivity].
  destruct (aet_loop _ _ _ _ _). reflexivity.
Qed.
Lemma rf_start : forall s durs now stop c, process_start_time s durs now stop (rf c) = lift rf (process_start_time s durs now stop c).
Proof.
  intros s durs now stop c. unfold process_start_time.
  change (c_seg_dur (rf c)) with (c_seg_dur c).
  destruct (quantize s (c_seg_dur c)) as [a|]; cbn [bind]; [|reflexivity].
  change (set_start_time (Some a) (set_ast a (rf c))) with (rf (set_start_time (Some a) (set_ast a c))).
  set (c1 := set_start_time (Some a) (set_ast a c)).
  change (c_mup (rf c1)) with (c_mup c1).
  assert (E : match c_mup c1 with None => set_mup (Some (inject_Z 10)) (rf c1) | Some _ => rf c1 end
     = rf (match c_mup c1 with None => set_mup (Some (inject_Z 10)) c1 | Some _ => c1 end)).
  { destruct (c_mup c1); reflexivity. }
  rewrite E. set (c2 := match c_mup c1 with None => set_mup (Some (inject_Z 10)) c1 | Some _ => c1 end).
  clearbody c2. clear E.
  set (X := match durs with [] => Ok (rf c2) | _ => _ end).
  set (Y := match durs with [] => Ok c2 | _ => _ end).
  assert (XY : X = lift rf Y).
  { unfold X, Y. destruct durs as [|d0 ds]; [reflexivity|].
    destruct (end_times _ _ _ _) as [pairs|]; cbn [bind]; [|reflexivity].
    destruct (py_last pairs) as [lp|]; cbn [bind]; [|reflexivity].
    destruct (py_div _ _) as [q|]; cbn [bind]; [|reflexivity].
    change (set_last_nrs (c_last_nrs (rf c2) ++ [inject_Z (q - 1)]) (rf c2))
      with (rf (set_last_nrs (c_last_nrs c2 ++ [inject_Z (q - 1)]) c2)).
    apply rf_aet. }
  rewrite XY. destruct Y as [c3|]; cbn [bind lift]; [|reflexivity].
  destruct stop as [st|]; [|reflexivity].
  destruct (quantize _ _); reflexivity.
Qed.
Lemma rf_tfdt : forall now c, update_for_tfdt32 now (rf c) = lift rf (update_for_tfdt32 now c).
Proof. intros. unfold update_for_tfdt32. destruct (quantize _ _); reflexivity. Qed.
Lemma rf_cont : forall now c, update_for_cont_update now (rf c) = lift rf (update_for_cont_update now c).
Proof.
  intros. unfold update_for_cont_update. change (c_seg_dur (rf c)) with (c_seg_dur c).
  destruct (quantize _ _); reflexivity.
Qed.
Lemma rf_modulo : forall m d c, update_with_modulo_period m d (rf c) = lift rf (update_with_modulo_period m d c).
Proof. intros. unfold update_with_modulo_period. destruct (mo_last_nr m d); reflexivity. Qed.
Lemma rf_publish : forall now c, update_publish_time now (rf c) = lift rf (update_publish_time now c).
Proof.
  intros. unfold update_publish_time. change (c_ast (rf c)) with (c_ast c). change (c_mup (rf c)) with (c_mup c).
  destruct (c_ast c =? 0); [reflexivity|]. destruct (c_mup c) as [m|]; [|reflexivity].
  destruct (quantizeQ now m); reflexivity.
Qed.
End Stages.

(** finish_url after update_with_reps *)
Definition finish_tail (now_int : Z) (v : vodcfg) (u : ustate) (c : config) : result config :=
  let c := update_with_vodcfg c v in
  let* c := match u_start u with
            | None => Ok c
            | Some s => match u_mod u with
                        | Some _ => Err "ConfigProcessorError"
                        | None => process_start_time s (u_durs u) now_int (u_stop u) c
                        end
            end in
  let* c := if c_tfdt32 c then
              if u_cont u then Err "ConfigProcessorError" else update_for_tfdt32 now_int c
            else Ok c in
  let* c := if u_cont u then update_for_cont_update now_int c else Ok c in
  let* c := match u_mod u with
            | None => Ok c
            | Some m => update_with_modulo_period m (c_seg_dur c) c
            end in
  let* c := update_publish_time now_int c in
  let c := if u_addloc u then set_add_loc true c else c in
  Ok (match u_toff u with None => c | Some t => set_timeoffset (Some t) c end).
Lemma finish_split : forall now parts pos v u,
  finish_url now parts pos v u = let* c := update_with_reps (u_cfg u) v parts pos in finish_tail now v u c.
Proof. reflexivity. Qed.

Lemma rf_tail : forall rp file l now v u c,
  finish_tail now v u (refile rp file l c) = lift (refile rp file l) (finish_tail now v u c).
Proof.
  intros rp file l now v u c. unfold finish_tail. rewrite rf_vodcfg.
  set (c1 := update_with_vodcfg c v). clearbody c1.
  set (X := match u_start u with None => Ok (refile rp file l c1) | Some s => _ end).
  set (Y := match u_start u with None => Ok c1 | Some s => _ end).
  assert (E : X = lift (refile rp file l) Y).
  { unfold X, Y. destruct (u_start u); [|reflexivity]. destruct (u_mod u); [reflexivity|]. apply rf_start. }
  rewrite E. destruct Y as [c2|]; cbn [bind lift]; [|reflexivity]. clear E X.
  change (c_tfdt32 (refile rp file l c2)) with (c_tfdt32 c2).
  set (X := if c_tfdt32 c2 then if u_cont u then _ else update_for_tfdt32 now (refile rp file l c2) else _).
  set (Y := if c_tfdt32 c2 then if u_cont u then _ else update_for_tfdt32 now c2 else _).
  assert (E : X = lift (refile rp file l) Y).
  { unfold X, Y. destruct (c_tfdt32 c2); [|reflexivity]. destruct (u_cont u); [reflexivity|]. apply rf_tfdt. }
  rewrite E. destruct Y as [c3|]; cbn [bind lift]; [|reflexivity]. clear E X.
  set (X := if u_cont u then update_for_cont_update now (refile rp file l c3) else _).
  set (Y := if u_cont u then update_for_cont_update now c3 else _).
  assert (E : X = lift (refile rp file l) Y).
  { unfold X, Y. destruct (u_cont u); [|reflexivity]. apply rf_cont. }
  rewrite E. destruct Y as [c4|]; cbn [bind lift]; [|reflexivity]. clear E X.
  change (c_seg_dur (refile rp file l c4)) with (c_seg_dur c4).
  set (X := match u_mod u with None => Ok (refile rp file l c4) | Some m => _ end).
  set (Y := match u_mod u with None => Ok c4 | Some m => _ end).
  assert (E : X = lift (refile rp file l) Y).
  { unfold X, Y. destruct (u_mod u); [|reflexivity]. apply rf_modulo. }
  rewrite E. destruct Y as [c5|]; cbn [bind lift]; [|reflexivity]. clear E X.
  rewrite rf_publish. destruct (update_publish_time now c5) as [c6|]; cbn [bind lift]; [|reflexivity].
  destruct (u_addloc u), (u_toff u); reflexivity.
Qed.

Lemma process_url_manifest : forall read base opts name file now,
  Forall (fun kv => str_in (fst kv) url_cfg_keys = true) opts -> plain_name name ->
  process_url read base (manifest_parts opts name file) now =
  let* u := fold_opts now opts (ustate_init base) in
  let* v := read name in
  finish_tail now v u (set_reps [] (u_cfg (filedata u opts name "" file))).
Proof.
  intros read base opts name file now F P. unfold process_url, manifest_parts.
  rewrite url_loop_opts by auto.
  destruct (fold_opts now opts (ustate_init base)) as [u|]; cbn [bind]; auto.
  rewrite Nat.add_0_l.
  set (n := List.length opts). set (L := map opt_text opts).
  assert (Ln : List.length L = n) by (unfold L; apply map_length).
  unfold update_with_filedata.
  assert (E1 : py_nth (L ++ [name; file]) n = Ok name).
  { unfold py_nth. rewrite nth_error_app2 by lia. rewrite Ln, Nat.sub_diag. reflexivity. }
  rewrite E1. cbn [bind].
  replace (L ++ [name; file]) with ((L ++ [name]) ++ [file]) by (rewrite <- app_assoc; reflexivity).
  rewrite py_last_app. cbn [bind].
  replace (firstn (S n) ((L ++ [name]) ++ [file])) with (L ++ [name]).
  2: { rewrite firstn_app, app_length, Ln. cbn [List.length]. replace (S n - (n + 1))%nat with 0%nat by lia.
       rewrite firstn_all2 by (rewrite app_length; cbn; lia). cbn [firstn]. rewrite app_nil_r. reflexivity. }
  replace (skipn (S n) ((L ++ [name]) ++ [file])) with [file].
  2: { rewrite skipn_app, app_length, Ln. cbn [List.length]. replace (S n - (n + 1))%nat with 0%nat by lia.
       rewrite skipn_all2 by (rewrite app_length; cbn; lia). reflexivity. }
  cbn [py_init removelast join]. cbn [c_content_name set_ext set_filename set_rel_path set_base_url set_content_name].
  destruct (read name) as [v|]; cbn [bind]; auto.
  rewrite finish_split. unfold update_with_reps.
  assert (Ln2 : List.length ((L ++ [name]) ++ [file]) = (n + 2)%nat) by (rewrite !app_length, Ln; cbn; lia).
  rewrite Ln2, Nat.ltb_irrefl. cbn [bind]. unfold filedata.
  destruct u; reflexivity.
Qed.

(** The main lemma. *)
Lemma session_same : forall read base opts name mfile rp file now c v ct m,
  Forall (fun kv => str_in (fst kv) url_cfg_keys = true) opts -> plain_name name ->
  process_url read base (manifest_parts opts name mfile) now = Ok c ->
  read name = Ok v -> split_dunder rp = [rp] -> content_type_for_rep (v_media v) rp = Some (ct, m) ->
  process_url read base (media_parts opts name rp file) now =
    Ok (refile rp file [mkRep rp ct (m_timescale m)] c).
Proof.
  intros read base opts name mfile rp file now c v ct m F P E R S C.
  rewrite process_url_manifest in E by auto. rewrite process_url_media by auto.
  destruct (fold_opts now opts (ustate_init base)) as [u|]; cbn [bind] in *; [|discriminate].
  rewrite R in *. cbn [bind] in *.
  rewrite finish_split. rewrite (reps_media _ _ _ _ _ _ _ _ S C). cbn [bind].
  replace (finish_tail now v (filedata u opts name rp file)) with (finish_tail now v u)
    by (unfold filedata; destruct u; reflexivity).
  replace (set_reps [mkRep rp ct (m_timescale m)] (u_cfg (filedata u opts name rp file)))
    with (refile rp file [mkRep rp ct (m_timescale m)] (set_reps [] (u_cfg (filedata u opts name "" mfile)))).
  2: { unfold filedata. destruct u. reflexivity. }
  rewrite rf_tail, E. reflexivity.
Qed.
