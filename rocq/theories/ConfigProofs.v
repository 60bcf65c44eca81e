(** Lemmas about ConfigModel.v: quantisation, the option loop, the derived
    configuration. *)
From Coq Require Import Lqa ZifyBool ZifyNat.
From Verif Require Import Base BaseProofs ConfigModel ProxyModel ProxySpec ProxyProofs.
Open Scope Z_scope.

Lemma quantize_ok : forall n d, 0 < d -> quantize n d = Ok (n / d * d).
Proof. intros. unfold quantize. rewrite py_div_ok by lia. reflexivity. Qed.

Lemma div_floor_bounds : forall n d, 0 < d -> n / d * d <= n < n / d * d + d.
Proof.
  intros n d H. assert (A := Z.div_mod n d ltac:(lia)).
  assert (B := Z.mod_pos_bound n d H). lia.
Qed.

(** fields set by update_with_vodcfg *)
Lemma vod_fields : forall c v,
  let c' := update_with_vodcfg c v in
  c_seg_dur c' = v_dur v /\ c_vod_n c' = v_n v /\ c_vod_first c' = v_first v /\
  c_media_data c' = v_media v /\
  c_tsbd c' = Some (match c_tsbd c with None => v_tsbd v | Some b => b end) /\
  c_ast c' = c_ast c /\ c_ato c' = c_ato c /\ c_aet c' = c_aet c /\ c_mpdur c' = c_mpdur c /\
  c_mup c' = c_mup c /\ c_last_nrs c' = c_last_nrs c /\ c_tfdt32 c' = c_tfdt32 c /\
  c_start_nr c' = c_start_nr c /\ c_stop_time c' = c_stop_time c /\
  c_timeoffset c' = c_timeoffset c /\ c_reps c' = c_reps c /\ c_filename c' = c_filename c /\
  c_rel_path c' = c_rel_path c /\ c_ext c' = c_ext c /\ c_multi_url c' = c_multi_url c /\
  c_init_off c' = c_init_off c /\ c_emsg_last c' = c_emsg_last c.
Proof.
  intros c v. unfold update_with_vodcfg. destruct (c_tsbd c) eqn:E; cbn;
    rewrite ?E; repeat split; reflexivity.
Qed.

Lemma reps_fields : forall c v parts pos c', update_with_reps c v parts pos = Ok c' ->
  c' = set_reps (c_reps c') c.
Proof.
  intros c v parts pos c' H. unfold update_with_reps in H.
  destruct (Nat.ltb (pos + 2) (List.length parts)).
  - destruct (py_nth parts (List.length parts - 2)); [|discriminate]. cbn [bind] in H.
    destruct (lookup_reps v (split_dunder a)); [|discriminate]. cbn [bind] in H.
    injection H as <-. reflexivity.
  - injection H as <-. reflexivity.
Qed.

(** What every successful finish_url leaves untouched. *)
Definition base_fields (u : ustate) (v : vodcfg) (c : config) : Prop :=
  c_seg_dur c = v_dur v /\ c_vod_n c = v_n v /\ c_vod_first c = v_first v /\
  c_ato c = c_ato (u_cfg u) /\ c_start_nr c = c_start_nr (u_cfg u) /\
  c_filename c = c_filename (u_cfg u) /\ c_rel_path c = c_rel_path (u_cfg u) /\
  c_ext c = c_ext (u_cfg u) /\ c_multi_url c = c_multi_url (u_cfg u) /\
  c_init_off c = c_init_off (u_cfg u) /\ c_emsg_last c = c_emsg_last (u_cfg u) /\
  c_tfdt32 c = c_tfdt32 (u_cfg u) /\
  c_media_data c = v_media v.

Definition keeps (c c' : config) : Prop :=
  c_seg_dur c' = c_seg_dur c /\ c_vod_n c' = c_vod_n c /\ c_vod_first c' = c_vod_first c /\
  c_ato c' = c_ato c /\ c_start_nr c' = c_start_nr c /\
  c_filename c' = c_filename c /\ c_rel_path c' = c_rel_path c /\
  c_ext c' = c_ext c /\ c_multi_url c' = c_multi_url c /\
  c_init_off c' = c_init_off c /\ c_emsg_last c' = c_emsg_last c /\
  c_tfdt32 c' = c_tfdt32 c /\
  c_media_data c' = c_media_data c /\ c_reps c' = c_reps c /\
  (c_tsbd c <> None -> c_tsbd c' <> None).

Lemma keeps_refl : forall c, keeps c c.
Proof. intros c. unfold keeps. repeat split; auto. Qed.
Lemma keeps_trans : forall a b c, keeps a b -> keeps b c -> keeps a c.
Proof.
  unfold keeps. intros a b c H K.
  destruct H as (h1&h2&h3&h4&h5&h6&h7&h8&h9&h10&h11&h12&h13&h14&h15).
  destruct K as (k1&k2&k3&k4&k5&k6&k7&k8&k9&k10&k11&k12&k13&k14&k15).
  repeat split; try congruence; auto.
Qed.

Lemma aet_fields : forall now pairs c c', update_with_aet now pairs c = Ok c' ->
  keeps c c' /\ c_tsbd c' = c_tsbd c /\ c_last_nrs c' = c_last_nrs c /\
  c_ast c' = c_ast c /\ c_stop_time c' = c_stop_time c /\ c_mup c' = c_mup c /\
  c_timeoffset c' = c_timeoffset c.
Proof.
  intros now pairs c c' H. unfold update_with_aet in H.
  destruct (rev pairs) as [|(la, ld) r].
  - injection H as <-. repeat split; auto.
  - destruct (c_mup c) eqn:E; [|discriminate].
    destruct (aet_loop now q ((la, ld) :: r) la None) as (et, dur).
    injection H as <-. cbn. repeat split; auto.
Qed.

Lemma start_time_fields : forall a durs now stop c c', 0 < c_seg_dur c ->
  process_start_time a durs now stop c = Ok c' ->
  keeps c c' /\
  c_ast c' = a / c_seg_dur c * c_seg_dur c /\
  c_timeoffset c' = c_timeoffset c /\
  c_mup c' = Some (match c_mup c with None => inject_Z 10 | Some m => m end) /\
  (stop = None -> c_stop_time c' = c_stop_time c /\ c_tsbd c' = c_tsbd c) /\
  (forall b, stop = Some b -> 
     let st := py_int_of_Q (inject_Z b + (999#1000) * inject_Z (c_seg_dur c))%Q
               / c_seg_dur c * c_seg_dur c in
     c_stop_time c' = Some st /\ c_mpdur c' = Some (inject_Z (st - c_ast c')) /\
     c_tsbd c' = Some (st - c_ast c')) /\
  (durs = [] -> c_last_nrs c' = c_last_nrs c /\ c_aet c' = c_aet c /\
                (stop = None -> c_mpdur c' = c_mpdur c)).
Proof.
  intros a durs now stop c c' Hd H. unfold process_start_time in H.
  rewrite quantize_ok in H by auto. cbn [bind] in H.
  set (A := a / c_seg_dur c * c_seg_dur c) in *.
  set (c1 := set_start_time (Some A) (set_ast A c)) in H.
  set (c2 := match c_mup c1 with None => set_mup (Some (inject_Z 10)) c1 | Some _ => c1 end) in H.
  assert (K2 : keeps c c2 /\ c_ast c2 = A /\ c_timeoffset c2 = c_timeoffset c /\
    c_mup c2 = Some (match c_mup c with None => inject_Z 10 | Some m => m end) /\
    c_tsbd c2 = c_tsbd c /\ c_stop_time c2 = c_stop_time c /\ c_last_nrs c2 = c_last_nrs c /\
    c_aet c2 = c_aet c /\ c_mpdur c2 = c_mpdur c).
  { subst c2. change (c_mup c1) with (c_mup c). destruct (c_mup c) eqn:E.
    - subst c1. cbn. rewrite E. repeat split; auto.
    - subst c1. cbn. repeat split; auto. }
  apply bind_ok in H. destruct H as (c3 & H3 & H).
  assert (K3 : keeps c c3 /\ c_ast c3 = A /\ c_timeoffset c3 = c_timeoffset c /\
    c_mup c3 = Some (match c_mup c with None => inject_Z 10 | Some m => m end) /\
    c_tsbd c3 = c_tsbd c /\ c_stop_time c3 = c_stop_time c /\
    (durs = [] -> c3 = c2)).
  { destruct K2 as (k1 & k2 & k3 & k4 & k5 & k6 & k7 & k8 & k9).
    destruct durs as [|x durs].
    - injection H3 as <-. repeat (split; [assumption|]). auto.
    - apply bind_ok in H3. destruct H3 as (pairs & Hp & H3).
      apply bind_ok in H3. destruct H3 as (lastp & Hl & H3).
      apply bind_ok in H3. destruct H3 as (q & Hq & H3).
      apply aet_fields in H3. destruct H3 as (f1 & f2 & f3 & f4 & f5 & f6 & f7).
      cbn in f2, f4, f5, f6, f7.
      split; [|split; [|split; [|split; [|split; [|split]]]]]; try congruence.
      + eapply keeps_trans; [exact k1|]. eapply keeps_trans; [|exact f1].
        unfold keeps. cbn. repeat split; auto. }
  destruct K3 as (k1 & k2 & k3 & k4 & k5 & k6 & k7).
  destruct stop as [b|].
  - rewrite quantize_ok in H by auto. cbn [bind] in H. injection H as <-. cbn.
    split; [|split; [|split; [|split; [|split; [|split]]]]]; auto; try discriminate.
    + eapply keeps_trans; [exact k1|]. unfold keeps. cbn. repeat split; auto. discriminate.
    + intros b' E. injection E as <-. rewrite k2. auto.
    + intros E. rewrite (k7 E). destruct K2 as (_ & _ & _ & _ & _ & _ & f7 & f8 & f9).
      split; auto. split; auto. discriminate.
  - injection H as <-.
    split; [|split; [|split; [|split; [|split; [|split]]]]]; auto; try discriminate.
    intros E. rewrite (k7 E). destruct K2 as (_ & _ & _ & _ & _ & _ & f7 & f8 & f9). auto.
Qed.

Lemma tfdt32_fields : forall now c c', update_for_tfdt32 now c = Ok c' ->
  keeps c c' /\ c_ast c' = now / 10800 * 10800 /\
  c_aet c' = Some (inject_Z (now / 10800 * 10800 + 10800)) /\
  c_mpdur c' = Some (inject_Z 10800) /\ c_stop_time c' = c_stop_time c /\
  c_last_nrs c' = c_last_nrs c /\ c_tsbd c' = c_tsbd c /\ c_timeoffset c' = c_timeoffset c /\
  c_mup c' = Some (inject_Z 5400).
Proof.
  intros now c c' H. unfold update_for_tfdt32 in H. rewrite quantize_ok in H by lia.
  cbn [bind] in H. injection H as <-. cbn. repeat split; auto.
Qed.

Lemma cont_fields : forall now c c', 0 < c_seg_dur c -> update_for_cont_update now c = Ok c' ->
  let A := (now - c_seg_dur c) / c_seg_dur c * c_seg_dur c in
  keeps c c' /\ c_ast c' = A /\
  c_aet c' = Some (inject_Z (A + 10800)) /\
  c_mpdur c' = Some (inject_Z 10800) /\ c_stop_time c' = c_stop_time c /\
  c_last_nrs c' = c_last_nrs c /\ c_tsbd c' = c_tsbd c /\ c_timeoffset c' = c_timeoffset c /\
  c_mup c' = Some (inject_Z 10800).
Proof.
  intros now c c' Hd H A. unfold update_for_cont_update in H. rewrite quantize_ok in H by lia.
  cbn [bind] in H. injection H as <-. cbn. repeat split; auto.
Qed.

Lemma modulo_fields : forall m d c c', update_with_modulo_period m d c = Ok c' ->
  exists l, mo_last_nr m d = Ok l /\
  keeps c c' /\ c_ast c' = mo_ast m /\ c_aet c' = Some (mo_aet m) /\
  c_mpdur c' = Some (mo_mpdur m) /\ c_stop_time c' = c_stop_time c /\
  c_last_nrs c' = c_last_nrs c ++ [l] /\ c_tsbd c' = c_tsbd c /\
  c_timeoffset c' = c_timeoffset c /\ c_mup c' = Some (mo_mup m).
Proof.
  intros m d c c' H. unfold update_with_modulo_period in H.
  apply bind_ok in H. destruct H as (l & Hl & H). injection H as <-.
  exists l. split; auto. cbn. repeat split; auto.
Qed.

Lemma publish_fields : forall now c c', update_publish_time now c = Ok c' ->
  exists p, c' = set_publish_time p c.
Proof.
  intros now c c' H. unfold update_publish_time in H.
  destruct (c_ast c =? 0); [injection H as <-; eauto|].
  destruct (c_mup c); [|discriminate].
  apply bind_ok in H. destruct H as (p & _ & H). injection H as <-. eauto.
Qed.

(** Last steps of finish_url: publish time, location flag, time offset. *)
Definition finish_tail (u : ustate) (p : Q) (c : config) : config :=
  let c := set_publish_time p c in
  let c := if u_addloc u then set_add_loc true c else c in
  match u_toff u with None => c | Some t => set_timeoffset (Some t) c end.

Lemma finish_tail_fields : forall u p c,
  keeps c (finish_tail u p c) /\ c_ast (finish_tail u p c) = c_ast c /\
  c_aet (finish_tail u p c) = c_aet c /\ c_mpdur (finish_tail u p c) = c_mpdur c /\
  c_stop_time (finish_tail u p c) = c_stop_time c /\
  c_last_nrs (finish_tail u p c) = c_last_nrs c /\ c_tsbd (finish_tail u p c) = c_tsbd c /\
  c_timeoffset (finish_tail u p c) = (match u_toff u with None => c_timeoffset c | Some t => Some t end) /\
  c_mup (finish_tail u p c) = c_mup c.
Proof.
  intros u p c. unfold finish_tail.
  destruct (u_addloc u); destruct (u_toff u); cbn; repeat split; auto.
Qed.

(** Decomposition of finish_url into its stages. *)
Lemma finish_url_stages : forall now parts pos v u c,
  finish_url now parts pos v u = Ok c ->
  exists l c1 c2 c3 c4 p,
    update_with_reps (u_cfg u) v parts pos = Ok (set_reps l (u_cfg u)) /\
    (match u_start u with
     | None => Ok (update_with_vodcfg (set_reps l (u_cfg u)) v)
     | Some s => match u_mod u with
                 | Some _ => Err "ConfigProcessorError"
                 | None => process_start_time s (u_durs u) now (u_stop u)
                             (update_with_vodcfg (set_reps l (u_cfg u)) v)
                 end
     end) = Ok c1 /\
    (if c_tfdt32 c1 then
       if u_cont u then Err "ConfigProcessorError" else update_for_tfdt32 now c1
     else Ok c1) = Ok c2 /\
    (if u_cont u then update_for_cont_update now c2 else Ok c2) = Ok c3 /\
    (match u_mod u with
     | None => Ok c3
     | Some m => update_with_modulo_period m (c_seg_dur c3) c3
     end) = Ok c4 /\
    c = finish_tail u p c4.
Proof.
  intros now parts pos v u c H. unfold finish_url in H.
  apply bind_ok in H. destruct H as (c0 & H0 & H).
  assert (E := reps_fields _ _ _ _ _ H0).
  exists (c_reps c0). rewrite <- E.
  apply bind_ok in H. destruct H as (c1 & H1 & H).
  apply bind_ok in H. destruct H as (c2 & H2 & H).
  apply bind_ok in H. destruct H as (c3 & H3 & H).
  apply bind_ok in H. destruct H as (c4 & H4 & H).
  apply bind_ok in H. destruct H as (c5 & H5 & H).
  destruct (publish_fields _ _ _ H5) as (p & ->).
  exists c1, c2, c3, c4, p. repeat (split; [assumption|]).
  injection H as <-. reflexivity.
Qed.

Lemma vod_keeps : forall l u v, base_fields u v (update_with_vodcfg (set_reps l (u_cfg u)) v) /\
  c_tsbd (update_with_vodcfg (set_reps l (u_cfg u)) v) <> None /\
  c_reps (update_with_vodcfg (set_reps l (u_cfg u)) v) = l.
Proof.
  intros l u v. set (c := set_reps l (u_cfg u)).
  destruct (vod_fields c v) as (f1&f2&f3&f4&f5&f6&f7&f8&f9&f10&f11&f12&f13&f14&f15&f16&f17&f18&f19&f20&f21&f22).
  split; [|split].
  - unfold base_fields. repeat split; congruence || (subst c; cbn in *; congruence).
  - rewrite f5. discriminate.
  - rewrite f16. reflexivity.
Qed.

Lemma keeps_base : forall u v c c', base_fields u v c -> keeps c c' -> base_fields u v c'.
Proof.
  unfold base_fields, keeps. intros u v c c' H K.
  destruct H as (h1&h2&h3&h4&h5&h6&h7&h8&h9&h10&h11&h12&h13).
  destruct K as (k1&k2&k3&k4&k5&k6&k7&k8&k9&k10&k11&k12&k13&k14&k15).
  repeat split; congruence.
Qed.

(** Every configuration derived from a URL with positive segment duration and
    loop length is well-formed. *)
Lemma finish_url_wf : forall now parts pos v u c,
  0 < v_dur v -> 0 < v_n v -> c_stop_time (u_cfg u) = None ->
  finish_url now parts pos v u = Ok c ->
  wf_cfg c /\ base_fields u v c.
Proof.
  intros now parts pos v u c Hd Hn HS H.
  destruct (finish_url_stages _ _ _ _ _ _ H) as (l & c1 & c2 & c3 & c4 & p & H0 & H1 & H2 & H3 & H4 & ->).
  destruct (vod_keeps l u v) as (B0 & T0 & _).
  set (c0 := update_with_vodcfg (set_reps l (u_cfg u)) v) in *.
  assert (D0 : 0 < c_seg_dur c0) by (destruct B0 as (b1 & _); lia).
  (* stop time implies presentation duration, at every stage *)
  assert (P1 : keeps c0 c1 /\ (has_stop c1 -> c_mpdur c1 <> None)).
  { destruct (u_start u) as [s|].
    - destruct (u_mod u); [discriminate|].
      destruct (start_time_fields _ _ _ _ _ _ D0 H1) as (K & _ & _ & _ & S1 & S2 & _).
      split; auto. destruct (u_stop u) as [b|].
      + destruct (S2 b eq_refl) as (_ & M & _). rewrite M. discriminate.
      + destruct (S1 eq_refl) as (S3 & _). intros HS1. exfalso. apply HS1. rewrite S3.
        unfold c0. destruct (vod_fields (set_reps l (u_cfg u)) v)
          as (_&_&_&_&_&_&_&_&_&_&_&_&_&f14&_). rewrite f14. exact HS.
    - injection H1 as <-. split; [apply keeps_refl|]. intros HS1. exfalso. apply HS1.
      unfold c0. destruct (vod_fields (set_reps l (u_cfg u)) v)
          as (_&_&_&_&_&_&_&_&_&_&_&_&_&f14&_). rewrite f14. exact HS. }
  destruct P1 as (K1 & M1).
  assert (P2 : keeps c1 c2 /\ (has_stop c2 -> c_mpdur c2 <> None)).
  { destruct (c_tfdt32 c1).
    - destruct (u_cont u); [discriminate|].
      destruct (tfdt32_fields _ _ _ H2) as (K & _ & _ & M & _). split; auto. rewrite M. discriminate.
    - injection H2 as <-. split; [apply keeps_refl|auto]. }
  destruct P2 as (K2 & M2).
  assert (K02 := keeps_trans _ _ _ K1 K2).
  assert (D2 : 0 < c_seg_dur c2) by (destruct K02 as (k & _); lia).
  assert (P3 : keeps c2 c3 /\ (has_stop c3 -> c_mpdur c3 <> None)).
  { destruct (u_cont u).
    - destruct (cont_fields _ _ _ D2 H3) as (K & _ & _ & M & _). split; auto. rewrite M. discriminate.
    - injection H3 as <-. split; [apply keeps_refl|auto]. }
  destruct P3 as (K3 & M3). assert (K03 := keeps_trans _ _ _ K02 K3).
  assert (P4 : keeps c3 c4 /\ (has_stop c4 -> c_mpdur c4 <> None)).
  { destruct (u_mod u).
    - destruct (modulo_fields _ _ _ _ H4) as (x & _ & K & _ & _ & M & _). split; auto. rewrite M. discriminate.
    - injection H4 as <-. split; [apply keeps_refl|auto]. }
  destruct P4 as (K4 & M4). assert (K04 := keeps_trans _ _ _ K03 K4).
  destruct (finish_tail_fields u p c4) as (K5 & _ & _ & F5 & F6 & _).
  assert (K05 := keeps_trans _ _ _ K04 K5).
  assert (B5 := keeps_base _ _ _ _ B0 K05).
  split; auto.
  destruct B5 as (b1 & b2 & _).
  constructor.
  - lia.
  - lia.
  - destruct K05 as (_&_&_&_&_&_&_&_&_&_&_&_&_&_&k15). specialize (k15 T0).
    destruct (c_tsbd (finish_tail u p c4)); [eauto|congruence].
  - unfold has_stop in *. rewrite F5, F6. intros HS4. specialize (M4 HS4).
    destruct (c_mpdur c4); [eauto|congruence].
Qed.

(** ** The option loop on a URL made of options *)

(** Text of an option. *)
Definition opt_text (kv : string * string) : string := (fst kv ++ "_" ++ snd kv)%string.

Lemma split_first_key : forall k v, (forall c, In c (list_ascii_of_string k) -> c <> "_"%char) ->
  split_first "_" (k ++ String "_" v) = Some (k, v).
Proof.
  induction k as [|c k IH]; intros v H; simpl; auto.
  simpl in H. destruct (Ascii.eqb_spec c "_"); [exfalso; apply (H c); auto|].
  rewrite IH by (intros; apply H; auto). reflexivity.
Qed.

Lemma keys_no_underscore : forall k, str_in k url_cfg_keys = true ->
  forall c, In c (list_ascii_of_string k) -> c <> "_"%char.
Proof.
  intros k H c Hc. unfold str_in in H. apply existsb_exists in H.
  destruct H as (x & Hx & E). apply String.eqb_eq in E. subst x.
  assert (F : forallb (fun s => forallb (fun c => negb (Ascii.eqb c "_")) (list_ascii_of_string s)) url_cfg_keys = true)
    by reflexivity.
  rewrite forallb_forall in F. specialize (F _ Hx). rewrite forallb_forall in F.
  specialize (F _ Hc). intros ->. discriminate.
Qed.

(** The first path part that is not an option. *)
Definition plain_name (name : string) : Prop :=
  match split_first "_" name with
  | None => str_in name url_cfg_keys = false
  | Some (k, _) => str_in k url_cfg_keys = false
  end.

Fixpoint fold_opts (now : Z) (opts : list (string * string)) (u : ustate) : result ustate :=
  match opts with
  | [] => Ok u
  | (k, v) :: r => let* u' := url_option now k v u in fold_opts now r u'
  end.

Lemma url_loop_opts : forall now opts name rest u pos,
  Forall (fun kv => str_in (fst kv) url_cfg_keys = true) opts -> plain_name name ->
  url_loop now (map opt_text opts ++ name :: rest) u pos =
  let* u' := fold_opts now opts u in Ok (u', (pos + List.length opts)%nat).
Proof.
  intros now opts name rest. induction opts as [|(k, v) opts IH]; intros u pos F P.
  - cbn [map app url_loop fold_opts bind List.length]. unfold plain_name in P. destruct (split_first "_" name) as [(k, v)|];
      rewrite P; rewrite Nat.add_0_r; reflexivity.
  - inversion F as [|? ? F1 F2]; subst. cbn [map app url_loop fold_opts].
    unfold opt_text at 1. cbn [fst snd] in *.
    change (k ++ "_" ++ v)%string with (k ++ String "_" v)%string.
    rewrite split_first_key by (apply keys_no_underscore; auto). rewrite F1.
    destruct (url_option now k v u); cbn [bind]; auto.
    rewrite IH by auto. destruct (fold_opts now opts a); cbn [bind]; auto.
    cbn [List.length]. f_equal. f_equal. lia.
Qed.

(** The URL of a media file of one representation, after the server prefix. *)
Definition media_parts (opts : list (string * string)) (name rp file : string) : list string :=
  map opt_text opts ++ [name; rp; file].

Definition filedata (u : ustate) (opts : list (string * string)) (name rp file : string) : ustate :=
  u_setcfg (fun c => set_ext (snd (splitext file)) (set_filename file (set_rel_path rp
       (set_base_url (c_base_url c ++ join "/" (map opt_text opts ++ [name]) ++ "/")%string
          (set_content_name name c))))) u.

Lemma py_last_app3 : forall {A} (l : list A) a b c, py_last (l ++ [a; b; c]) = Ok c.
Proof.
  intros. replace (l ++ [a; b; c]) with ((l ++ [a; b]) ++ [c]) by (rewrite <- app_assoc; reflexivity).
  apply py_last_app.
Qed.

(** process_url on such a URL. *)
Lemma process_url_media : forall read base opts name rp file now,
  Forall (fun kv => str_in (fst kv) url_cfg_keys = true) opts -> plain_name name ->
  process_url read base (media_parts opts name rp file) now =
  let* u := fold_opts now opts (ustate_init base) in
  let* v := read name in
  finish_url now (media_parts opts name rp file) (List.length opts) v (filedata u opts name rp file).
Proof.
  intros read base opts name rp file now F P. unfold process_url, media_parts.
  rewrite url_loop_opts by auto.
  destruct (fold_opts now opts (ustate_init base)) as [u|]; cbn [bind]; auto.
  rewrite Nat.add_0_l.
  set (n := List.length opts). set (L := map opt_text opts).
  assert (Ln : List.length L = n) by (unfold L; apply map_length).
  unfold update_with_filedata.
  assert (E1 : py_nth (L ++ [name; rp; file]) n = Ok name).
  { unfold py_nth. rewrite nth_error_app2 by lia. rewrite Ln, Nat.sub_diag. reflexivity. }
  rewrite E1. cbn [bind]. rewrite py_last_app3. cbn [bind].
  replace (firstn (S n) (L ++ [name; rp; file])) with (L ++ [name]).
  2: { rewrite firstn_app, Ln. replace (S n - n)%nat with 1%nat by lia.
       rewrite firstn_all2 by lia. reflexivity. }
  replace (skipn (S n) (L ++ [name; rp; file])) with [rp; file].
  2: { rewrite skipn_app, Ln. replace (S n - n)%nat with 1%nat by lia.
       rewrite skipn_all2 by lia. reflexivity. }
  cbn [py_init removelast join]. cbn [c_content_name set_ext set_filename set_rel_path set_base_url set_content_name].
  destruct (read name); cbn [bind]; auto.
Qed.

(** A single configured representation. *)
Lemma reps_media : forall u v opts name rp file ct m,
  split_dunder rp = [rp] -> content_type_for_rep (v_media v) rp = Some (ct, m) ->
  update_with_reps (u_cfg u) v (media_parts opts name rp file) (List.length opts) =
  Ok (set_reps [mkRep rp ct (m_timescale m)] (u_cfg u)).
Proof.
  intros u v opts name rp file ct m S C. unfold update_with_reps, media_parts.
  assert (L : List.length (map opt_text opts ++ [name; rp; file]) = (List.length opts + 3)%nat).
  { rewrite app_length, map_length. reflexivity. }
  rewrite L. destruct (Nat.ltb_spec (List.length opts + 2) (List.length opts + 3)); [|lia].
  unfold py_nth. rewrite nth_error_app2 by (rewrite map_length; lia).
  rewrite map_length. replace (List.length opts + 3 - 2 - List.length opts)%nat with 1%nat by lia.
  cbn [nth_error bind]. rewrite S. cbn [lookup_reps]. rewrite C. reflexivity.
Qed.
