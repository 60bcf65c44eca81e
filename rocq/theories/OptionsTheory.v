(** C48: URL options are independent of order, the last of equal ones wins, they end at
    the content name, and malformed numbers are rejected. *)
From Coq Require Import Lqa ZifyBool ZifyNat.
From Verif Require Import Base BaseProofs ConfigModel ProxyModel ProxySpec ProxyProofs ProxyTheory ConfigProofs ConfigTheory OptionsProofs.
Open Scope Z_scope.

Definition known (opts : list (string * string)) : Prop :=
  Forall (fun kv => str_in (fst kv) url_cfg_keys = true) opts.

(** Same options up to order: options that overwrite one another (same key, or two
    spellings of the start or the stop time) keep their relative order. *)
Definition reordered (l1 l2 : list (string * string)) : Prop :=
  forall s, filter (fun x => String.eqb (slot (fst x)) s) l1 =
            filter (fun x => String.eqb (slot (fst x)) s) l2.

Lemma reordered_in : forall l1 l2 x, reordered l1 l2 -> In x l1 -> In x l2.
Proof.
  intros l1 l2 x R H.
  assert (In x (filter (fun y => String.eqb (slot (fst y)) (slot (fst x))) l1)).
  { apply filter_In. split; auto. apply String.eqb_refl. }
  rewrite R in H0. apply filter_In in H0. tauto.
Qed.

Lemma known_reordered : forall l1 l2, reordered l1 l2 -> known l1 -> known l2.
Proof.
  intros l1 l2 R K. unfold known in *. rewrite Forall_forall in *. intros x Hx. apply K.
  apply reordered_in with l2; auto. intros s. symmetry. apply R.
Qed.

Lemma get_media_base : forall b c now, get_media (set_base_url b c) now = get_media c now.
Proof.
  intros b c now. unfold get_media.
  change (c_ext (set_base_url b c)) with (c_ext c).
  change (first_segment_ast (set_base_url b c)) with (first_segment_ast c).
  change (c_aet (set_base_url b c)) with (c_aet c).
  assert (P : forall c, process_media_segment (set_base_url b c) now = process_media_segment c now)
    by (intros; reflexivity).
  assert (E : get_m4s (set_base_url b c) now = get_m4s c now).
  { unfold get_m4s. change (c_multi_url (set_base_url b c)) with (c_multi_url c).
    rewrite P.
    destruct (c_multi_url c) as [|u [|]]; try reflexivity.
    destruct (parse_updown u) as [((ca, d1), (cb, d2))|]; [|reflexivity]. cbn [bind].
    destruct (d1 + d2 =? 0); [reflexivity|].
    assert (U : forall is m60 dur1 total resp,
      ud_loop (set_base_url b c) now m60 dur1 total is resp = ud_loop c now m60 dur1 total is resp).
    { induction is as [|i is IH]; intros; cbn [ud_loop]; auto.
      change (process_media_segment (set_emsg_last true (set_base_url b c)) now)
        with (process_media_segment (set_emsg_last true c) now).
      destruct (_ && _); auto. destruct (m60 =? i * total + dur1); auto.
      destruct (process_media_segment (set_emsg_last true c) now); cbn [bind]; auto. }
    destruct (_ && _); [rewrite U; reflexivity|]. reflexivity. }
  rewrite E. reflexivity.
Qed.

Lemma reps_parts : forall c v opts name rp file,
  update_with_reps c v (media_parts opts name rp file) (List.length opts) =
  let* l := lookup_reps v (split_dunder rp) in Ok (set_reps l c).
Proof.
  intros. unfold update_with_reps, media_parts.
  assert (L : List.length (map opt_text opts ++ [name; rp; file]) = (List.length opts + 3)%nat).
  { rewrite app_length, map_length. reflexivity. }
  rewrite L. destruct (Nat.ltb_spec (List.length opts + 2) (List.length opts + 3)); [|lia].
  unfold py_nth. rewrite nth_error_app2 by (rewrite map_length; lia).
  rewrite map_length. replace (List.length opts + 3 - 2 - List.length opts)%nat with 1%nat by lia.
  reflexivity.
Qed.

Lemma finish_parts : forall now v u l1 l2 name rp file,
  finish_url now (media_parts l1 name rp file) (List.length l1) v u =
  finish_url now (media_parts l2 name rp file) (List.length l2) v u.
Proof. intros. unfold finish_url. rewrite !reps_parts. reflexivity. Qed.

(** The configuration is the same, up to the base URL (which repeats the options
    literally for the manifest). *)
Lemma order_config : forall read base name rp file l1 l2 now c,
  known l1 -> plain_name name -> reordered l1 l2 ->
  process_url read base (media_parts l1 name rp file) now = Ok c ->
  exists b, process_url read base (media_parts l2 name rp file) now = Ok (set_base_url b c).
Proof.
  intros read base name rp file l1 l2 now c K P R H.
  rewrite process_url_media in H by auto.
  rewrite process_url_media by (auto; apply known_reordered with l1; auto).
  apply bind_ok in H. destruct H as (u & H1 & H).
  rewrite (proj1 (fold_opts_reorder now l1 l2 (ustate_init base) u R) H1). cbn [bind].
  destruct (read name) as [v|]; [|discriminate]. cbn [bind] in *.
  rewrite (finish_parts now v (filedata u l2 name rp file) l2 l1).
  set (b := (c_base_url (u_cfg u) ++ join "/" (map opt_text l2 ++ [name]) ++ "/")%string).
  change (filedata u l2 name rp file) with (u_setcfg (set_base_url b) (filedata u l1 name rp file)).
  rewrite b_finish, H. exists b. reflexivity.
Qed.

Lemma C48_order_config_pf : forall read base name rp file l1 l2 now c,
  known l1 -> plain_name name -> reordered l1 l2 ->
  process_url read base (media_parts l1 name rp file) now = Ok c ->
  exists b, process_url read base (media_parts l2 name rp file) now = Ok (set_base_url b c).
Proof. exact order_config. Qed.

Lemma C48_order_request_pf : forall read base name rp file l1 l2 now r,
  known l1 -> plain_name name -> reordered l1 l2 ->
  (request read base (media_parts l1 name rp file) now = Ok r <->
   request read base (media_parts l2 name rp file) now = Ok r).
Proof.
  intros read base name rp file l1 l2 now r K P R.
  assert (G : forall l1 l2, known l1 -> reordered l1 l2 ->
     request read base (media_parts l1 name rp file) now = Ok r ->
     request read base (media_parts l2 name rp file) now = Ok r).
  { clear l1 l2 K R. intros l1 l2 K R H. unfold request in *. apply bind_ok in H.
    destruct H as (c & H & G). destruct (order_config _ _ _ _ _ _ _ _ _ K P R H) as (b & ->).
    cbn [bind]. rewrite get_media_base. exact G. }
  split; apply G; auto.
  - apply known_reordered with l1; auto.
  - intros s. symmetry. apply R.
Qed.
Example ex_reordered :
  known [("start", "600"); ("tsbd", "30"); ("dur", "60"); ("snr", "2"); ("dur", "30")]%string /\
  reordered [("start", "600"); ("tsbd", "30"); ("dur", "60"); ("snr", "2"); ("dur", "30")]%string
            [("dur", "60"); ("snr", "2"); ("dur", "30"); ("start", "600"); ("tsbd", "30")]%string /\
  plain_name "testpic_2s".
Proof.
  split; [repeat constructor|]. split; [|reflexivity]. intros s. cbn [filter fst].
  change (slot "start") with "start"%string. change (slot "tsbd") with "tsbd"%string.
  change (slot "dur") with "dur"%string. change (slot "snr") with "snr"%string.
  destruct (String.eqb_spec "start" s); [subst s; reflexivity|].
  destruct (String.eqb_spec "tsbd" s); [subst s; reflexivity|].
  destruct (String.eqb_spec "dur" s); [subst s; reflexivity|].
  destruct (String.eqb_spec "snr" s); [subst s; reflexivity|]. reflexivity.
Qed.

(** Options with one value; the remaining ones accumulate (dur, baseurl), can only be
    switched on (continuous, segtimeline, segtimelinenr, sidx, segtimelineloss) or ignore
    unusable values (chunkdur). *)
Definition scalar_keys : list string :=
  ["start"; "ast"; "stop"; "startrel"; "stoprel"; "timeoffset"; "init"; "tsbd"; "mup"; "modulo";
   "tfdt"; "cont"; "periods"; "xlink"; "etp"; "etpDuration"; "insertad"; "mpdcallback"; "peroff";
   "scte35"; "utc"; "snr"; "ato"; "spd"; "sts"; "sid"]%string.

Lemma apply_last : forall now k v1 v2 p1 p2 u, str_in k scalar_keys = true ->
  parse_opt now k v1 = Ok p1 -> parse_opt now k v2 = Ok p2 ->
  apply p2 (apply p1 u) = apply p2 u.
Proof.
  intros now k v1 v2 p1 p2 u S H1 H2. unfold str_in in S. apply existsb_exists in S.
  destruct S as (x & Hx & E). apply String.eqb_eq in E. subst x.
  cbn [scalar_keys In] in Hx.
  repeat match type of Hx with
  | _ = _ \/ _ => destruct Hx as [<-|Hx]
  end; try (destruct Hx); unfold parse_opt in H1, H2.
  all: repeat match type of H1 with context [if ?b then _ else _] =>
         let b' := eval vm_compute in b in change b with b' in H1; cbv iota in H1 end.
  all: repeat match type of H2 with context [if ?b then _ else _] =>
         let b' := eval vm_compute in b in change b with b' in H2; cbv iota in H2 end.
  all: try (injection H1 as <-; injection H2 as <-; reflexivity).
  all: try (destruct (py_int v1); [|discriminate]; destruct (py_int v2); [|discriminate];
            cbn [bind] in H1, H2; injection H1 as <-; injection H2 as <-; reflexivity).
  all: try (destruct (String.eqb v1 "inf"); destruct (String.eqb v2 "inf");
            injection H1 as <-; injection H2 as <-; reflexivity).
  - destruct (py_int v1); [|discriminate]. destruct (py_int v2); [|discriminate].
    cbn [bind] in H1, H2. destruct (modulo_init a now); [|discriminate].
    destruct (modulo_init a0 now); [|discriminate].
    injection H1 as <-. injection H2 as <-. reflexivity.
  - destruct (interpret_start_nr v1); [|discriminate]. destruct (interpret_start_nr v2); [|discriminate].
    injection H1 as <-. injection H2 as <-. reflexivity.
  - match type of H1 with (if ?b then _ else _) = _ => destruct b end;
    match type of H2 with (if ?b then _ else _) = _ => destruct b end;
    injection H1 as <-; injection H2 as <-; reflexivity.
Qed.

Lemma fold_app : forall now l1 l2 u,
  fold_opts now (l1 ++ l2) u = let* u' := fold_opts now l1 u in fold_opts now l2 u'.
Proof.
  intros now l1. induction l1 as [|(k, v) l1 IH]; intros; cbn [app fold_opts bind]; auto.
  destruct (url_option now k v u); cbn [bind]; auto.
Qed.

(** The last of several equal scalar options wins: an earlier one (with a readable value)
    can be left out. *)
Lemma C48_last_wins_partial_pf : forall read base name rp file l1 l2 l3 k v1 v2 now c,
  known (l1 ++ (k, v1) :: l2 ++ (k, v2) :: l3) -> plain_name name ->
  str_in k scalar_keys = true ->
  (forall x, In x l2 -> slot (fst x) <> slot k) ->
  process_url read base (media_parts (l1 ++ (k, v1) :: l2 ++ (k, v2) :: l3) name rp file) now = Ok c ->
  exists b, process_url read base (media_parts (l1 ++ l2 ++ (k, v2) :: l3) name rp file) now
              = Ok (set_base_url b c).
Proof.
  intros read base name rp file l1 l2 l3 k v1 v2 now c K P S N H.
  rewrite process_url_media in H by auto.
  assert (K' : known (l1 ++ l2 ++ (k, v2) :: l3)).
  { unfold known in *. apply Forall_app in K. destruct K as (K1 & K2). inversion K2; subst.
    apply Forall_app. auto. }
  rewrite process_url_media by auto.
  apply bind_ok in H. destruct H as (u & H1 & H).
  assert (E : fold_opts now (l1 ++ l2 ++ (k, v2) :: l3) (ustate_init base) = Ok u).
  { rewrite fold_app in H1 |- *. apply bind_ok in H1. destruct H1 as (u1 & -> & H1). cbn [bind].
    apply (proj2 (fold_move now l2 k v2 l3 _ _ N)). cbn [fold_opts] in H1 |- *. apply bind_ok in H1.
    destruct H1 as (u2 & H2 & H1). apply (proj1 (fold_move now l2 k v2 l3 _ _ N)) in H1. cbn [fold_opts] in H1.
    rewrite url_option_parse in H2, H1 |- *. 
    destruct (parse_opt now k v1) as [p1|] eqn:E1; [|discriminate]. cbn [bind] in H2. injection H2 as <-.
    destruct (parse_opt now k v2) as [p2|] eqn:E2; [|discriminate]. cbn [bind] in H1 |- *.
    rewrite (apply_last _ _ _ _ _ _ _ S E1 E2) in H1. exact H1. }
  rewrite E. cbn [bind]. destruct (read name) as [v|]; [|discriminate]. cbn [bind] in *.
  set (L1 := l1 ++ (k, v1) :: l2 ++ (k, v2) :: l3) in *. set (L2 := l1 ++ l2 ++ (k, v2) :: l3) in *.
  rewrite (finish_parts now v (filedata u L2 name rp file) L2 L1).
  set (b := (c_base_url (u_cfg u) ++ join "/" (map opt_text L2 ++ [name]) ++ "/")%string).
  change (filedata u L2 name rp file) with (u_setcfg (set_base_url b) (filedata u L1 name rp file)).
  rewrite b_finish, H. exists b. reflexivity.
Qed.
Example ex_last_wins : exists c,
  ex_cfg ["snr_5"; "tsbd_10"; "snr_7"; "testpic"; "V1"; "1.m4s"]%string 1000 = Ok c /\
  c_start_nr c = 7 /\ c_tsbd c = Some 10.
Proof. eexists. split; [vm_compute; reflexivity|]. auto. Qed.

(** Finding: on/off options cannot be switched off again. *)
Lemma C48_flag_last_wins_refuted_pf : exists c,
  ex_cfg ["segtimeline_1"; "segtimeline_0"; "testpic"; "V1"; "1.m4s"]%string 1000 = Ok c /\
  c_segtl c = true.
Proof. eexists. split; [vm_compute; reflexivity|]. auto. Qed.

(** Nothing after the first part that is not an option is interpreted as one: whatever
    follows, the option state is that of the leading options. *)
Lemma C48_stops_at_name_pf : forall now opts name rest base,
  known opts -> plain_name name ->
  url_loop now (map opt_text opts ++ name :: rest) (ustate_init base) 0 =
  let* (u, pos) := url_loop now (map opt_text opts ++ [name]) (ustate_init base) 0 in Ok (u, pos).
Proof.
  intros. rewrite !url_loop_opts by auto. destruct (fold_opts now opts (ustate_init base)); reflexivity.
Qed.
Example ex_stops : exists c,
  ex_cfg ["snr_5"; "testpic"; "snr_7"; "tsbd_5"; "V1"; "1.m4s"]%string 1000 = Ok c /\
  c_start_nr c = 5 /\ c_tsbd c = Some 300 /\ c_rel_path c = "snr_7/tsbd_5/V1"%string.
Proof. eexists. split; [vm_compute; reflexivity|]. repeat split. Qed.

(** Options whose value must be an integer. *)
Definition int_keys : list string :=
  ["start"; "ast"; "stop"; "startrel"; "stoprel"; "dur"; "timeoffset"; "init"; "tsbd"; "mup"; "modulo";
   "periods"; "xlink"; "etp"; "etpDuration"; "insertad"; "mpdcallback"; "continuous"; "segtimeline";
   "segtimelinenr"; "peroff"; "scte35"; "snr"; "spd"; "sidx"; "segtimelineloss"]%string.

Lemma parse_bad : forall now k v e, str_in k int_keys = true -> py_int v = Err e ->
  exists e', parse_opt now k v = Err e'.
Proof.
  intros now k v e S H. unfold str_in in S. apply existsb_exists in S.
  destruct S as (x & Hx & E). apply String.eqb_eq in E. subst x.
  cbn [int_keys In] in Hx.
  repeat match type of Hx with
  | _ = _ \/ _ => destruct Hx as [<-|Hx]
  end; try (destruct Hx); unfold parse_opt;
  repeat match goal with |- context [if String.eqb ?a ?b then _ else _] =>
         let b' := eval vm_compute in (String.eqb a b) in change (String.eqb a b) with b'; cbv iota
  | |- context [if String.eqb ?a ?b || String.eqb ?c ?d then _ else _] =>
         let b' := eval vm_compute in (String.eqb a b || String.eqb c d) in
         change (String.eqb a b || String.eqb c d) with b'; cbv iota end;
  unfold interpret_start_nr; rewrite H; cbn [bind]; eexists; reflexivity.
Qed.

Lemma C48_bad_number_rejected_pf : forall read base name rp file l1 l2 k v e now,
  known (l1 ++ (k, v) :: l2) -> plain_name name -> str_in k int_keys = true -> py_int v = Err e ->
  exists e', process_url read base (media_parts (l1 ++ (k, v) :: l2) name rp file) now = Err e'.
Proof.
  intros read base name rp file l1 l2 k v e now K P S H. rewrite process_url_media by auto.
  destruct (fold_opts now (l1 ++ (k, v) :: l2) (ustate_init base)) as [u|e'] eqn:E; [|cbn [bind]; eauto].
  exfalso. rewrite fold_app in E. apply bind_ok in E. destruct E as (u1 & _ & E).
  cbn [fold_opts] in E. rewrite url_option_parse in E.
  destruct (parse_bad now k v e S H) as (e' & Q). rewrite Q in E. discriminate.
Qed.
Example ex_bad_number : exists e, py_int "6a" = Err e /\
  ex_cfg ["tsbd_6a"; "testpic"; "V1"; "1.m4s"]%string 1000 = Err e.
Proof. eexists. split; vm_compute; reflexivity. Qed.

(** Keys that are not options end the option list, so an unknown option is taken for the
    content name (and its configuration will not be found). *)
Lemma C48_unknown_key_is_name_pf : forall read base parts part now,
  (match split_first "_" part with None => True | Some (k, _) => str_in k url_cfg_keys = false end) ->
  str_in part url_cfg_keys = false ->
  forall c, process_url read base (part :: parts) now = Ok c ->
  exists v, read part = Ok v /\ c_media_data c = v_media v.
Proof.
  intros read base parts part now H1 H2 c H. unfold process_url in H.
  cbn [url_loop] in H.
  assert (E : (match split_first "_" part with
       | Some (key, value) => if str_in key url_cfg_keys then
            let* u' := url_option now key value (ustate_init base) in url_loop now parts u' 1
          else Ok (ustate_init base, 0%nat)
       | None => if str_in part url_cfg_keys then Err "ValueError" else Ok (ustate_init base, 0%nat)
       end) = Ok (ustate_init base, 0%nat)).
  { destruct (split_first "_" part) as [(k, v)|]; [rewrite H1|rewrite H2]; reflexivity. }
  rewrite E in H. cbn [bind] in H. unfold update_with_filedata in H.
  cbn [py_nth nth_error bind] in H. apply bind_ok in H. destruct H as (c1 & H3 & H).
  apply bind_ok in H3. destruct H3 as (fn & _ & H3). injection H3 as <-.
  cbn [c_content_name set_ext set_filename set_rel_path set_base_url set_content_name] in H.
  apply bind_ok in H. destruct H as (v & Hv & H). exists v. split; auto.
  destruct (finish_url_stages _ _ _ _ _ _ H) as (l & d1 & d2 & d3 & d4 & p & G0 & G1 & G2 & G3 & G4 & ->).
  cbn [u_start u_setcfg ustate_init] in G1. injection G1 as <-.
  destruct (vod_keeps l (u_setcfg (fun _ => set_ext (snd (splitext fn))
              (set_filename fn
                 (set_rel_path (join "/" (py_init (skipn 1 (part :: parts))))
                    (set_base_url
                       (c_base_url (u_cfg (ustate_init base)) ++
                        join "/" (firstn 1 (part :: parts)) ++ "/")%string
                       (set_content_name part (u_cfg (ustate_init base))))))) (ustate_init base)) v) as (B & _).
  set (c0 := update_with_vodcfg _ v) in *.
  assert (T : c_tfdt32 c0 = false) by (destruct B as (_&_&_&_&_&_&_&_&_&_&_&b12&_); rewrite b12; reflexivity).
  rewrite T in G2. injection G2 as <-. cbn [u_cont u_setcfg ustate_init] in G3. injection G3 as <-.
  cbn [u_mod u_setcfg ustate_init] in G4. injection G4 as <-.
  match goal with |- c_media_data (finish_tail ?u _ _) = _ =>
    destruct (finish_tail_fields u p c0) as ((_&_&_&_&_&_&_&_&_&_&_&_&k13&_) & _) end.
  rewrite k13. destruct B as (_&_&_&_&_&_&_&_&_&_&_&_&b13). exact b13.
Qed.
Example ex_unknown : ex_cfg ["foo_3"; "testpic"; "V1"; "1.m4s"]%string 1000 = Err "NoSectionError".
Proof. vm_compute. reflexivity. Qed.
