(** URL options as a list of independent updates (used for C48). *)
From Coq Require Import Lqa ZifyBool ZifyNat Permutation.
From Verif Require Import Base BaseProofs ConfigModel ConfigProofs.
Open Scope Z_scope.

(** What one option does to the processing state, once its value has been read. *)
Inductive upd :=
| UNone | UStart (z : Z) | UStop (z : Z) | UStartRel (z : Z) | UStopRel (z : Z)
| UDur (z : Z) | UToff (z : Z) | UInit (z : Z) | UTsbd (z : Z) | UMup (z : Z) | UMod (m : modulo)
| UTfdt | UCont | UPeriods (z : Z) | UXlink (z : Z) | UEtp (z : Z) | UEtpDur (z : Z)
| UInsertAd (z : Z) | UCallback (z : Z) | UContMp (b : bool) | USegtl (b : bool)
| USegtlnr (b : bool) | UBaseurl (s : string) | UPeroff (z : Z) | UScte (z : Z)
| UUtc (l : list string) | USnr (z : Z) | UAto (q : option Q) | USpd (z : Z) | USidx (b : bool)
| ULoss (b : bool) | UChunk (q : option Q).

Definition apply (p : upd) (u : ustate) : ustate :=
  let c := u_cfg u in
  match p with
  | UNone => u
  | UStart z => mkU c (Some z) (u_stop u) (u_durs u) (u_toff u) (u_cont u) (u_mod u) (u_addloc u)
  | UStop z => mkU c (u_start u) (Some z) (u_durs u) (u_toff u) (u_cont u) (u_mod u) (u_addloc u)
  | UStartRel z => mkU c (Some z) (u_stop u) (u_durs u) (u_toff u) (u_cont u) (u_mod u) true
  | UStopRel z => mkU c (u_start u) (Some z) (u_durs u) (u_toff u) (u_cont u) (u_mod u) true
  | UDur z => mkU c (u_start u) (u_stop u) (u_durs u ++ [z]) (u_toff u) (u_cont u) (u_mod u) (u_addloc u)
  | UToff z => mkU c (u_start u) (u_stop u) (u_durs u) (Some z) (u_cont u) (u_mod u) (u_addloc u)
  | UInit z => u_setcfg (set_init_off z) u
  | UTsbd z => u_setcfg (set_tsbd (Some z)) u
  | UMup z => u_setcfg (set_mup (Some (inject_Z z))) u
  | UMod m => mkU c (u_start u) (u_stop u) (u_durs u) (u_toff u) (u_cont u) (Some m) (u_addloc u)
  | UTfdt => u_setcfg (set_tfdt32 true) u
  | UCont => mkU c (u_start u) (u_stop u) (u_durs u) (u_toff u) true (u_mod u) (u_addloc u)
  | UPeriods z => u_setcfg (set_pph z) u
  | UXlink z => u_setcfg (set_xlink z) u
  | UEtp z => u_setcfg (set_etp z) u
  | UEtpDur z => u_setcfg (set_etpdur z) u
  | UInsertAd z => u_setcfg (set_insert_ad z) u
  | UCallback z => u_setcfg (set_callback z) u
  | UContMp b => if b then u_setcfg (set_cont_mp true) u else u
  | USegtl b => if b then u_setcfg (set_segtl true) u else u
  | USegtlnr b => if b then u_setcfg (set_segtlnr true) u else u
  | UBaseurl s => u_setcfg (set_multi_url (c_multi_url c ++ [s])) u
  | UPeroff z => u_setcfg (set_peroff z) u
  | UScte z => u_setcfg (set_scte35 z) u
  | UUtc l => u_setcfg (set_utc l) u
  | USnr z => u_setcfg (set_start_nr z) u
  | UAto q => u_setcfg (set_ato q) u
  | USpd z => u_setcfg (set_spd (Some z)) u
  | USidx b => if b then u_setcfg (set_insert_sidx true) u else u
  | ULoss b => if b then u_setcfg (set_stl_loss true) u else u
  | UChunk q => match q with
                | Some q => u_setcfg (fun c => set_atc false (set_chunkdur (Some q) c)) u
                | None => u end
  end.

(** The group of options that overwrite one another: the key, except that "ast" and
    "startrel" are other spellings of "start", and "stoprel" of "stop". *)
Definition slot (k : string) : string :=
  if String.eqb k "ast" || String.eqb k "startrel" then "start"%string
  else if String.eqb k "stoprel" then "stop"%string else k.

Definition upd_slot (p : upd) : string :=
  match p with
  | UNone => "" | UStart _ | UStartRel _ => "start" | UStop _ | UStopRel _ => "stop"
  | UDur _ => "dur" | UToff _ => "timeoffset" | UInit _ => "init" | UTsbd _ => "tsbd"
  | UMup _ => "mup" | UMod _ => "modulo" | UTfdt => "tfdt" | UCont => "cont"
  | UPeriods _ => "periods" | UXlink _ => "xlink" | UEtp _ => "etp" | UEtpDur _ => "etpDuration"
  | UInsertAd _ => "insertad" | UCallback _ => "mpdcallback" | UContMp _ => "continuous"
  | USegtl _ => "segtimeline" | USegtlnr _ => "segtimelinenr" | UBaseurl _ => "baseurl"
  | UPeroff _ => "peroff" | UScte _ => "scte35" | UUtc _ => "utc" | USnr _ => "snr"
  | UAto _ => "ato" | USpd _ => "spd" | USidx _ => "sidx" | ULoss _ => "segtimelineloss"
  | UChunk _ => "chunkdur"
  end%string.

Lemma apply_commute : forall p q u, upd_slot p <> upd_slot q ->
  apply p (apply q u) = apply q (apply p u).
Proof.
  intros p q u H. destruct p; destruct q; try reflexivity; try (exfalso; apply H; reflexivity);
    cbn [apply]; try (destruct b); try (destruct b0); try (destruct q); try (destruct q0); reflexivity.
Qed.

Definition parse_opt (now : Z) (key value : string) : result upd :=
  if String.eqb key "sts" then Ok UNone
  else if String.eqb key "sid" then Ok UNone
  else if String.eqb key "start" || String.eqb key "ast" then
    let* z := py_int value in Ok (UStart z)
  else if String.eqb key "stop" then let* z := py_int value in Ok (UStop z)
  else if String.eqb key "startrel" then let* z := py_int value in Ok (UStartRel (now + z))
  else if String.eqb key "stoprel" then let* z := py_int value in Ok (UStopRel (now + z))
  else if String.eqb key "dur" then let* z := py_int value in Ok (UDur z)
  else if String.eqb key "timeoffset" then let* z := py_int value in Ok (UToff z)
  else if String.eqb key "init" then let* z := py_int value in Ok (UInit z)
  else if String.eqb key "tsbd" then let* z := py_int value in Ok (UTsbd z)
  else if String.eqb key "mup" then let* z := py_int value in Ok (UMup z)
  else if String.eqb key "modulo" then
    let* z := py_int value in let* m := modulo_init z now in Ok (UMod m)
  else if String.eqb key "tfdt" then Ok UTfdt
  else if String.eqb key "cont" then Ok UCont
  else if String.eqb key "periods" then let* z := py_int value in Ok (UPeriods z)
  else if String.eqb key "xlink" then let* z := py_int value in Ok (UXlink z)
  else if String.eqb key "etp" then let* z := py_int value in Ok (UEtp z)
  else if String.eqb key "etpDuration" then let* z := py_int value in Ok (UEtpDur z)
  else if String.eqb key "insertad" then let* z := py_int value in Ok (UInsertAd z)
  else if String.eqb key "mpdcallback" then let* z := py_int value in Ok (UCallback z)
  else if String.eqb key "continuous" then let* z := py_int value in Ok (UContMp (z =? 1))
  else if String.eqb key "segtimeline" then let* z := py_int value in Ok (USegtl (z =? 1))
  else if String.eqb key "segtimelinenr" then let* z := py_int value in Ok (USegtlnr (z =? 1))
  else if String.eqb key "baseurl" then Ok (UBaseurl value)
  else if String.eqb key "peroff" then let* z := py_int value in Ok (UPeroff z)
  else if String.eqb key "scte35" then let* z := py_int value in Ok (UScte z)
  else if String.eqb key "utc" then Ok (UUtc (split_all "-" value))
  else if String.eqb key "snr" then let* z := interpret_start_nr value in Ok (USnr z)
  else if String.eqb key "ato" then
    if String.eqb value "inf" then Ok (UAto None)
    else Ok (UAto (Some (match py_float value with Ok q => Qmax0 q | Err _ => 0%Q end)))
  else if String.eqb key "spd" then let* z := py_int value in Ok (USpd z)
  else if String.eqb key "sidx" then let* z := py_int value in Ok (USidx (z =? 1))
  else if String.eqb key "segtimelineloss" then let* z := py_int value in Ok (ULoss (z =? 1))
  else if String.eqb key "chunkdur" then
    Ok (UChunk (match py_float value with
                | Ok q => if Qltb 0 q then Some q else None | Err _ => None end))
  else Err "ConfigProcessorError".

Lemma url_option_parse : forall now k v u,
  url_option now k v u = let* p := parse_opt now k v in Ok (apply p u).
Proof.
  intros now k v u. unfold url_option, parse_opt.
  repeat match goal with
  | |- (if ?b then _ else _) = _ => destruct b; cbn [bind]
  end; unfold int_opt, flag_opt; try (destruct (py_int v); reflexivity); try reflexivity.
  - destruct (py_int v); cbn [bind]; auto. destruct (modulo_init a now); reflexivity.
  - destruct (interpret_start_nr v); reflexivity.
  - destruct (py_float v); [|reflexivity]. destruct (Qltb 0 a); reflexivity.
Qed.

Lemma parse_slot : forall now k v p, parse_opt now k v = Ok p ->
  p = UNone \/ upd_slot p = slot k.
Proof.
  intros now k v p H. unfold parse_opt in H.
  repeat match type of H with
  | (if String.eqb k ?s then _ else _) = _ =>
      destruct (String.eqb_spec k s); [subst k|]
  | (if String.eqb k ?s || String.eqb k ?t then _ else _) = _ =>
      destruct (String.eqb_spec k s); [subst k|]; cbn [orb] in H
  end; try discriminate;
  try (left; congruence); right; try (injection H as <-; reflexivity);
  try (destruct (py_int v); [|discriminate]; cbn [bind] in H; 
       first [injection H as <-; reflexivity
             |destruct (modulo_init a now); [|discriminate]; injection H as <-; reflexivity]).
  - destruct (interpret_start_nr v); [|discriminate]. injection H as <-. reflexivity.
  - destruct (String.eqb v "inf"); injection H as <-; reflexivity.
Qed.

Fixpoint parse_all (now : Z) (l : list (string * string)) : result (list upd) :=
  match l with
  | [] => Ok []
  | (k, v) :: r => let* p := parse_opt now k v in let* ps := parse_all now r in Ok (p :: ps)
  end.

Lemma fold_opts_parse_ok : forall now l u u',
  fold_opts now l u = Ok u' <->
  exists ps, parse_all now l = Ok ps /\ u' = fold_left (fun u p => apply p u) ps u.
Proof.
  intros now l. induction l as [|(k, v) l IH]; intros u u'; cbn [fold_opts parse_all].
  - split.
    + intros H. injection H as <-. exists []. auto.
    + intros (ps & H & ->). injection H as <-. reflexivity.
  - rewrite url_option_parse. destruct (parse_opt now k v) as [p|e]; cbn [bind].
    + rewrite IH. split.
      * intros (ps & -> & ->). cbn [bind]. exists (p :: ps). auto.
      * intros (ps & H & ->). destruct (parse_all now l) as [ps'|]; [|discriminate].
        cbn [bind] in H. injection H as <-. exists ps'. auto.
    + split; [discriminate|]. intros (ps & H & _). discriminate.
Qed.

(** ** Moving one option to the front *)
Lemma fold_move : forall now a k v b u u',
  (forall x, In x a -> slot (fst x) <> slot k) ->
  (fold_opts now (a ++ (k, v) :: b) u = Ok u' <-> fold_opts now ((k, v) :: a ++ b) u = Ok u').
Proof.
  intros now a k v b. induction a as [|(k1, v1) a IH]; intros u u' H; [tauto|].
  cbn [app fold_opts].
  assert (H1 : slot k1 <> slot k) by (apply (H (k1, v1)); left; reflexivity).
  assert (HA : forall x, In x a -> slot (fst x) <> slot k) by (intros x Hx; apply H; right; auto).
  rewrite (url_option_parse now k1 v1 u), (url_option_parse now k v u).
  destruct (parse_opt now k1 v1) as [p1|] eqn:E1; cbn [bind].
  - rewrite (IH (apply p1 u) u' HA). cbn [fold_opts]. rewrite url_option_parse.
    destruct (parse_opt now k v) as [p|] eqn:E; cbn [bind]; [|tauto].
    rewrite url_option_parse, E1. cbn [bind].
    assert (C : apply p (apply p1 u) = apply p1 (apply p u)).
    { destruct (parse_slot _ _ _ _ E1) as [->|S1]; [reflexivity|].
      destruct (parse_slot _ _ _ _ E) as [->|S2]; [reflexivity|].
      apply apply_commute. congruence. }
    rewrite C. tauto.
  - destruct (parse_opt now k v) as [p|] eqn:E; cbn [bind].
    + rewrite url_option_parse, E1. cbn [bind]. split; discriminate.
    + split; discriminate.
Qed.

Definition of_slot (s : string) (x : string * string) : bool := String.eqb (slot (fst x)) s.

Lemma filter_nil_slot : forall a s, filter (of_slot s) a = [] -> forall x, In x a -> slot (fst x) <> s.
Proof.
  intros a s H x Hx E. assert (In x (filter (of_slot s) a)).
  { apply filter_In. split; auto. unfold of_slot. apply String.eqb_eq. auto. }
  rewrite H in H0. destruct H0.
Qed.

Lemma first_of_slot : forall l s x r, filter (of_slot s) l = x :: r ->
  exists a b, l = a ++ x :: b /\ filter (of_slot s) a = [] /\ slot (fst x) = s.
Proof.
  induction l as [|y l IH]; intros s x r H; [discriminate|]. cbn [filter] in H.
  destruct (of_slot s y) eqn:E.
  - injection H as <- H. exists [], l. repeat split. unfold of_slot in E. apply String.eqb_eq in E. auto.
  - destruct (IH _ _ _ H) as (a & b & -> & A & B). exists (y :: a), b. cbn [app filter]. rewrite E. auto.
Qed.

Lemma fold_opts_reorder : forall now l1 l2 u u',
  (forall s, filter (of_slot s) l1 = filter (of_slot s) l2) ->
  (fold_opts now l1 u = Ok u' <-> fold_opts now l2 u = Ok u').
Proof.
  intros now l1. induction l1 as [|(k, v) l1 IH]; intros l2 u u' H.
  - destruct l2 as [|(k, v) l2]; [tauto|]. specialize (H (slot k)). cbn [filter] in H.
    unfold of_slot in H at 1. cbn [fst] in H. rewrite String.eqb_refl in H. discriminate.
  - assert (Hk := H (slot k)). cbn [filter] in Hk. unfold of_slot in Hk at 1. cbn [fst] in Hk.
    rewrite String.eqb_refl in Hk.
    destruct (first_of_slot _ _ _ _ (eq_sym Hk)) as (a & b & -> & A & _).
    rewrite fold_move by (apply filter_nil_slot; exact A).
    cbn [fold_opts]. destruct (url_option now k v u) as [u1|]; cbn [bind]; [|tauto].
    apply IH. intros s. specialize (H s). cbn [filter] in H. rewrite filter_app in H |- *.
    cbn [filter] in H. unfold of_slot at 1 in H. 
    destruct (String.eqb_spec (slot (fst (k, v))) s) as [E|E].
    + subst s. cbn [fst] in *. rewrite A in H |- *. cbn [app] in *.
      unfold of_slot in H at 2. cbn [fst] in H. rewrite String.eqb_refl in H. congruence.
    + rewrite H. f_equal. unfold of_slot at 1.
      destruct (String.eqb_spec (slot (fst (k, v))) s); [contradiction|reflexivity].
Qed.

(** ** The base URL is not used for anything but the manifest *)
Definition setb (b : string) (r : result config) : result config :=
  match r with Ok c => Ok (set_base_url b c) | Err e => Err e end.

Lemma b_vod : forall b c v, update_with_vodcfg (set_base_url b c) v = set_base_url b (update_with_vodcfg c v).
Proof.
  intros. unfold update_with_vodcfg. change (c_tsbd (set_base_url b c)) with (c_tsbd c).
  destruct (c_tsbd c); reflexivity.
Qed.
Lemma b_aet : forall b now pairs c,
  update_with_aet now pairs (set_base_url b c) = setb b (update_with_aet now pairs c).
Proof.
  intros. unfold update_with_aet. change (c_mup (set_base_url b c)) with (c_mup c).
  destruct (rev pairs) as [|(x, y) l]; [reflexivity|].
  destruct (c_mup c); [|reflexivity]. destruct (aet_loop _ _ _ _ _). reflexivity.
Qed.
Lemma b_start : forall b a durs now stop c,
  process_start_time a durs now stop (set_base_url b c) = setb b (process_start_time a durs now stop c).
Proof.
  intros. unfold process_start_time. change (c_seg_dur (set_base_url b c)) with (c_seg_dur c).
  destruct (quantize a (c_seg_dur c)) as [A|]; [|reflexivity]. cbn [bind].
  change (c_mup (set_start_time (Some A) (set_ast A (set_base_url b c)))) with (c_mup c).
  change (c_mup (set_start_time (Some A) (set_ast A c))) with (c_mup c).
  assert (G : forall c1 c2 : config, c2 = set_base_url b c1 ->
    (let* c' := match durs with
    | [] => Ok c2
    | _ =>
        let* pairs := end_times a (c_seg_dur c) durs 0 in
        let* lastp := py_last pairs in
        let* q := py_div (fst lastp - A) (c_seg_dur c) in
        let c := set_last_nrs (c_last_nrs c2 ++ [inject_Z (q - 1)]) c2 in
        update_with_aet now pairs c
    end in
    match stop with
    | None => Ok c'
    | Some s =>
      let* st := quantize (py_int_of_Q (inject_Z s + (999#1000) * inject_Z (c_seg_dur c))%Q) (c_seg_dur c) in
      Ok (set_tsbd (Some (st - A)) (set_mpdur (Some (inject_Z (st - A)))
           (set_stop_time (Some st) c')))
    end) = setb b
    (let* c' := match durs with
    | [] => Ok c1
    | _ =>
        let* pairs := end_times a (c_seg_dur c) durs 0 in
        let* lastp := py_last pairs in
        let* q := py_div (fst lastp - A) (c_seg_dur c) in
        let c := set_last_nrs (c_last_nrs c1 ++ [inject_Z (q - 1)]) c1 in
        update_with_aet now pairs c
    end in
    match stop with
    | None => Ok c'
    | Some s =>
      let* st := quantize (py_int_of_Q (inject_Z s + (999#1000) * inject_Z (c_seg_dur c))%Q) (c_seg_dur c) in
      Ok (set_tsbd (Some (st - A)) (set_mpdur (Some (inject_Z (st - A)))
           (set_stop_time (Some st) c')))
    end)).
  { intros c1 c2 ->.
    match goal with |- bind ?x _ = setb b (bind ?y _) => assert (E : x = setb b y) end.
    { destruct durs as [|x0 durs0]; [reflexivity|].
      destruct (end_times a (c_seg_dur c) (x0 :: durs0) 0); [|reflexivity]. cbn [bind].
      destruct (py_last a0); [|reflexivity]. cbn [bind].
      destruct (py_div (fst a1 - A) (c_seg_dur c)); [|reflexivity]. cbn [bind].
      change (c_last_nrs (set_base_url b c1)) with (c_last_nrs c1). cbv zeta.
      rewrite <- b_aet. reflexivity. }
    rewrite E. clear E.
    match goal with |- bind (setb b ?y) _ = _ => destruct y end; [|reflexivity]. cbn [bind setb].
    destruct stop; [|reflexivity]. 
    destruct (quantize _ _); reflexivity. }
  destruct (c_mup c); apply G; reflexivity.
Qed.

Lemma b_publish : forall b now c,
  update_publish_time now (set_base_url b c) = setb b (update_publish_time now c).
Proof.
  intros. unfold update_publish_time. change (c_ast (set_base_url b c)) with (c_ast c).
  change (c_mup (set_base_url b c)) with (c_mup c).
  destruct (c_ast c =? 0); [reflexivity|]. destruct (c_mup c); [|reflexivity].
  destruct (quantizeQ now q); reflexivity.
Qed.

Lemma b_finish : forall b now parts pos v u,
  finish_url now parts pos v (u_setcfg (set_base_url b) u) = setb b (finish_url now parts pos v u).
Proof.
  intros. unfold finish_url.
  change (u_cfg (u_setcfg (set_base_url b) u)) with (set_base_url b (u_cfg u)).
  change (u_start (u_setcfg (set_base_url b) u)) with (u_start u).
  change (u_stop (u_setcfg (set_base_url b) u)) with (u_stop u).
  change (u_durs (u_setcfg (set_base_url b) u)) with (u_durs u).
  change (u_toff (u_setcfg (set_base_url b) u)) with (u_toff u).
  change (u_cont (u_setcfg (set_base_url b) u)) with (u_cont u).
  change (u_mod (u_setcfg (set_base_url b) u)) with (u_mod u).
  change (u_addloc (u_setcfg (set_base_url b) u)) with (u_addloc u).
  assert (E : update_with_reps (set_base_url b (u_cfg u)) v parts pos = setb b (update_with_reps (u_cfg u) v parts pos)).
  { unfold update_with_reps. destruct (Nat.ltb (pos + 2) (List.length parts)); [|reflexivity].
    destruct (py_nth parts (List.length parts - 2)); [|reflexivity]. cbn [bind].
    destruct (lookup_reps v (split_dunder a)); reflexivity. }
  rewrite E. clear E. destruct (update_with_reps (u_cfg u) v parts pos) as [c|]; [|reflexivity].
  cbn [bind setb]. rewrite b_vod. generalize (update_with_vodcfg c v). clear c. intros c.
  match goal with |- bind ?x _ = setb b (bind ?y _) => assert (E : x = setb b y) end.
  { destruct (u_start u); [|reflexivity]. destruct (u_mod u); [reflexivity|]. apply b_start. }
  rewrite E. clear E. 
  match goal with |- bind (setb b ?y) _ = _ => destruct y as [c1|] end; [|reflexivity].
  cbn [bind setb]. clear c. change (c_tfdt32 (set_base_url b c1)) with (c_tfdt32 c1).
  match goal with |- bind ?x _ = setb b (bind ?y _) => assert (E : x = setb b y) end.
  { destruct (c_tfdt32 c1); [|reflexivity]. destruct (u_cont u); [reflexivity|].
    unfold update_for_tfdt32. destruct (quantize now 10800); reflexivity. }
  rewrite E. clear E. 
  match goal with |- bind (setb b ?y) _ = _ => destruct y as [c2|] end; [|reflexivity].
  cbn [bind setb]. clear c1.
  match goal with |- bind ?x _ = setb b (bind ?y _) => assert (E : x = setb b y) end.
  { destruct (u_cont u); [|reflexivity]. unfold update_for_cont_update.
    change (c_seg_dur (set_base_url b c2)) with (c_seg_dur c2).
    destruct (quantize (now - c_seg_dur c2) (c_seg_dur c2)); reflexivity. }
  rewrite E. clear E. 
  match goal with |- bind (setb b ?y) _ = _ => destruct y as [c3|] end; [|reflexivity].
  cbn [bind setb]. clear c2.
  match goal with |- bind ?x _ = setb b (bind ?y _) => assert (E : x = setb b y) end.
  { destruct (u_mod u); [|reflexivity]. unfold update_with_modulo_period.
    change (c_seg_dur (set_base_url b c3)) with (c_seg_dur c3).
    destruct (mo_last_nr m (c_seg_dur c3)); reflexivity. }
  rewrite E. clear E. 
  match goal with |- bind (setb b ?y) _ = _ => destruct y as [c4|] end; [|reflexivity].
  cbn [bind setb]. clear c3. rewrite b_publish.
  destruct (update_publish_time now c4) as [c5|]; [|reflexivity]. cbn [bind setb].
  destruct (u_addloc u); destruct (u_toff u); reflexivity.
Qed.
