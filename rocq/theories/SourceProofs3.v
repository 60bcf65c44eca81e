(** The analysis of a manifest is the analysis of the files it names. *)
From Coq Require Import ZifyBool ZifyNat.
From Verif Require Import Base BaseProofs BytesModel StrModel ConfigModel TimeModel Mp4Model InitModel MpdModel VodModel SourceModel XlinkProofs Mpd2Spec
  TimeProofs HttpProofs VodProofs2 SourceSpec SourceProofs SourceProofs2.
Local Open Scope string_scope.
Open Scope Z_scope.

(** ** The manifest *)
Definition template_keys : list string := ["initialization"; "startNumber"; "media"; "duration"; "timescale"].
Lemma parse_children_is : forall l a, parse_children l a =
  mk_aset (fold_left (fun d t => add_attributes t template_keys d) (filter (is_tag "SegmentTemplate") l) (as_attribs a))
    (as_reps a ++ map (fun r => add_attributes r ["id"; "bandwidth"] []) (filter (is_tag "Representation") l))%list.
Proof.
  intros l. induction l as [|c l IH]; intros a; [destruct a; cbn; rewrite app_nil_r; reflexivity|].
  cbn [parse_children filter]. rewrite IH.
  destruct (is_tag "SegmentTemplate" c) eqn:S.
  - assert (R : is_tag "Representation" c = false).
    { unfold is_tag in *. apply String.eqb_eq in S. rewrite S. reflexivity. }
    rewrite R. reflexivity.
  - destruct (is_tag "Representation" c); [|reflexivity]. cbn [as_attribs as_reps map]. rewrite <- app_assoc. reflexivity.
Qed.
(** What the attributes of a set and its representations give. *)
Definition set_reads (a : aset) (s : listed_set) : Prop :=
  item "contentType" (as_attribs a) = Ok (Some (ls_type s)) /\
  item "initialization" (as_attribs a) = Ok (Some (written (ls_init s))) /\
  item "media" (as_attribs a) = Ok (Some (written (ls_media s))) /\
  source_ticks a = Ok (ls_ticks s) /\ source_timescale a = Ok (ls_scale s) /\ source_start a = Ok (ls_start s) /\
  Forall2 (fun r p => item "id" r = Ok (Some (fst p)) /\ item "bandwidth" r = Ok (Some (snd p))) (as_reps a) (ls_reps s).
Lemma parse_set_reads : forall x s, set_says x s -> set_reads (parse_set x) s.
Proof.
  intros x s (C & (t & T & Ti & Tm & (dt & D1 & D2 & D3) & (st & S1 & S2 & S3) & TS) & R).
  unfold parse_set. rewrite parse_children_is, T. cbn [fold_left as_attribs as_reps List.app].
  unfold set_reads. cbn [as_attribs as_reps].
  assert (E : exists m ts, get "timescale" t = ts /\
    add_attributes t template_keys (add_attributes x ["contentType"; "mimeType"] []) =
    [("contentType", Some (ls_type s)); ("mimeType", m); ("initialization", Some (written (ls_init s))); ("startNumber", Some st);
     ("media", Some (written (ls_media s))); ("duration", Some dt); ("timescale", ts)]).
  { exists (get "mimeType" x), (get "timescale" t). split; [reflexivity|].
    cbn [add_attributes template_keys]. rewrite C, Ti, Tm, D1, S1. destruct (get "mimeType" x); destruct (get "timescale" t); reflexivity. }
  destruct E as (m & ts & E1 & ->). subst ts.
  split; [reflexivity|]. split; [reflexivity|]. split; [reflexivity|].
  split; [unfold source_ticks; cbn; exact D3|]. split.
  { unfold source_timescale. cbn. destruct TS as [(-> & ->) | (v & -> & N & V)]; [reflexivity|]. destruct (String.eqb_spec v ""); [contradiction|exact V]. }
  split; [unfold source_start; cbn; exact S3|].
  clear - R. revert R. generalize (filter (is_tag "Representation") (x_kids x)) as l. generalize (ls_reps s) as ps. intros ps l R.
  induction R as [|r p l ps (I & B) R IH]; cbn [map]; constructor; [|exact IH].
  cbn [add_attributes assoc]. rewrite I, B. split; reflexivity.
Qed.
Lemma parse_source_reads : forall root sets, manifest_says root sets -> exists l, parse_source root = Ok l /\ Forall2 set_reads l sets.
Proof.
  intros root sets (T & D & S). unfold parse_source. unfold is_tag at 1. rewrite T. cbn [String.eqb Ascii.eqb Bool.eqb].
  eexists. split.
  - destruct D as [-> | (d & n & -> & E)]; [|rewrite E]; reflexivity.
  - assert (G : forall l sets', Forall2 set_says (flat_map (fun p => filter (is_tag "AdaptationSet") (x_kids p)) (filter (is_tag "Period") l)) sets' ->
      Forall2 set_reads (flat_map (fun p => if is_tag "Period" p then map parse_set (filter (is_tag "AdaptationSet") (x_kids p)) else []) l) sets').
    { clear. intros l. induction l as [|p l IH]; intros sets' H; [exact (match H with Forall2_nil _ => Forall2_nil _ end)|].
      cbn [filter flat_map] in *. destruct (is_tag "Period" p); [|apply IH; exact H].
      cbn [flat_map] in H. apply Forall2_app_inv_l in H. destruct H as (a & b & Ha & Hb & ->). apply Forall2_app; [|apply IH; exact Hb].
      clear - Ha. induction Ha as [|x s l' m E _ IH]; cbn [map]; constructor; [apply parse_set_reads; exact E|exact IH]. }
    exact (G _ _ S).
Qed.

(** ** One representation *)
Lemma source_rep_is : forall fs base a s rep p, set_reads a s -> directory base -> plain_init (ls_init s) -> plain_media (ls_media s) ->
  item "id" rep = Ok (Some (fst p)) -> item "bandwidth" rep = Ok (Some (snd p)) -> rep_there fs base s p ->
  relative (meant (fst p) (snd p) "" (ls_init s)) -> relative (meant (fst p) (snd p) "%d" (ls_media s)) ->
  exists r, rep_holds fs base s p r /\ source_rep fs base a rep = init_rep r.
Proof.
  intros fs base a s rep (id, bw) (_ & EI & EM & _) DB PI PM Ei Eb (Lid & (b & IF) & pre & post & l & MF & T) Ri Rm. cbn [fst snd] in *.
  exists (mk_vrep id b (found pre post l)). assert (TN := tidy_named _ _ _ T). split.
  - split; [reflexivity|]. split; [exact IF|]. exists pre, post, l. cbn [fst snd vr_files]. split; [exact MF|]. split; [exact T|].
    split; [apply found_nodup; [exact TN|]; destruct MF as (d & _ & _ & _ & (_ & _ & N) & _); exact N|].
    intros n x. apply found_in. exact TN.
  - unfold source_rep, init_path, media_path, fill_pattern. rewrite EI, EM, Ei, Eb. cbn [bind replace_value].
    rewrite init_expands by assumption. rewrite media_expands by assumption.
    rewrite !path_join_at by assumption.
    destruct IF as (d & n & l0 & E0 & N0 & C0 & I0). rewrite E0. rewrite (read_at fs d n l0 C0 N0).
    rewrite (assoc_found _ _ _ _ (proj2 (proj2 C0)) I0). cbn [bind]. unfold init_rep. cbn [vr_init vr_files vr_id].
    destruct (init_filter b) as [(o, st)|e]; [|reflexivity]. cbn [bind].
    destruct (is_track_id st); [|reflexivity]. cbn [bind]. destruct (is_trex st) as [(((u, d'), v), w)|]; [|reflexivity]. cbn [bind].
    destruct (find_numbers_at _ _ _ _ _ _ _ _ MF T) as (F1 & F2). cbn zeta in F1, F2. rewrite F1. cbn [bind].
    destruct (segment_range (map fst (found pre post l))) as [(first, lst)|e]; [|reflexivity]. cbn [bind]. rewrite F2. reflexivity.
Qed.
Lemma source_reps_are : forall fs base a s reps ps ts, set_reads a s -> directory base -> plain_init (ls_init s) -> plain_media (ls_media s) ->
  Forall2 (fun r p => item "id" r = Ok (Some (fst p)) /\ item "bandwidth" r = Ok (Some (snd p))) reps ps ->
  Forall (fun p => rep_there fs base s p /\ relative (meant (fst p) (snd p) "" (ls_init s)) /\
                   relative (meant (fst p) (snd p) "%d" (ls_media s))) ps ->
  exists rs, Forall2 (rep_holds fs base s) ps rs /\ source_reps fs base a reps ts = init_reps rs ts.
Proof.
  intros fs base a s reps ps ts SR DB PI PM R. revert ts. induction R as [|rep p reps ps (Ei & Eb) R IH]; intros ts H.
  - exists []. split; [constructor|reflexivity].
  - inversion H as [|? ? (A & B & C) Hl]; subst.
    destruct (source_rep_is fs base a s rep p SR DB PI PM Ei Eb A B C) as (r & Hr & Er).
    assert (X : forall t, exists rs, Forall2 (rep_holds fs base s) ps rs /\ source_reps fs base a reps t = init_reps rs t) by (intros t; apply IH; exact Hl).
    destruct (init_rep r) as [(rd, rts)|e] eqn:IR.
    + set (t := match ts with None => Ok rts | Some t => if rts =? t then Ok t else Err "DashAnalyzerError" end).
      destruct t as [t'|e] eqn:ET.
      * destruct (X (Some t')) as (rs & Hrs & Ers). exists (r :: rs). split; [constructor; assumption|].
        cbn [source_reps init_reps]. rewrite Er, IR. cbn [bind]. fold t. rewrite ET. cbn [bind]. rewrite Ers. reflexivity.
      * destruct (X None) as (rs & Hrs & _). exists (r :: rs). split; [constructor; assumption|].
        cbn [source_reps init_reps]. rewrite Er, IR. cbn [bind]. fold t. rewrite ET. reflexivity.
    + destruct (X None) as (rs & Hrs & _). exists (r :: rs). split; [constructor; assumption|].
      cbn [source_reps init_reps]. rewrite Er, IR. reflexivity.
Qed.

(** ** All sets *)
Definition bare (sd : sdata) : sdata :=
  let s := sd_set sd in mk_sdata (mk_vset (vs_type s) (vs_duration s) (vs_timescale s) (vs_start s) []) (sd_reps sd) (sd_timescale sd).
Definition bares (r : result (list sdata)) : result (list sdata) := match r with Ok l => Ok (map bare l) | Err e => Err e end.
Lemma source_media_is : forall fs base l sets seen, Forall2 set_reads l sets -> directory base -> Forall (set_there fs base) sets ->
  exists vs, Forall2 (set_holds fs base) sets vs /\ source_media fs base l seen = bares (init_media vs seen).
Proof.
  intros fs base l sets seen R. revert seen. induction R as [|a s l sets SR R IH]; intros seen DB H.
  - exists []. split; [constructor|reflexivity].
  - inversion H as [|? ? (PI & PM & HR) Hl]; subst.
    destruct (source_reps_are fs base a s (as_reps a) (ls_reps s) None SR DB PI PM) as (rs & Hrs & Ers); [apply SR|exact HR|].
    destruct (IH (ls_type s :: seen) DB Hl) as (vs & Hvs & Evs).
    exists (mk_vset (ls_type s) (ls_ticks s) (ls_scale s) (ls_start s) rs :: vs). split.
    { constructor; [|exact Hvs]. repeat split. exact Hrs. }
    destruct SR as (EC & _ & _ & ET & ES & EN & _). cbn [source_media init_media vs_type vs_reps]. rewrite EC. cbn [bind].
    destruct (str_in (ls_type s) seen); [reflexivity|]. rewrite Ers. destruct (init_reps rs None) as [(rds, ts)|e]; [|reflexivity]. cbn [bind].
    rewrite Evs. destruct (init_media vs (ls_type s :: seen)) as [sds|e]; [|reflexivity]. cbn [bind bares]. rewrite ET, ES, EN. reflexivity.
Qed.
Lemma check_rep_bare : forall w sd ts d rd a out, check_rep w (sd_set (bare sd)) ts d rd a out = check_rep w (sd_set sd) ts d rd a out.
Proof. reflexivity. Qed.
Lemma check_reps_bare : forall sd ts d l a out, check_reps (sd_set (bare sd)) ts d l a out = check_reps (sd_set sd) ts d l a out.
Proof.
  intros sd ts d l. induction l as [|rd l IH]; intros a out; [reflexivity|]. cbn [check_reps]. rewrite check_rep_bare.
  destruct (check_rep false (sd_set sd) ts d rd a out) as [((a1, o1), z)|e]; [|reflexivity]. cbn [bind]. apply IH.
Qed.
Lemma check_set_bare : forall base sd a, check_set base (bare sd) a = check_set base sd a.
Proof.
  intros base sd a. unfold check_set. change (sd_timescale (bare sd)) with (sd_timescale sd).
  change (set_duration (sd_set (bare sd))) with (set_duration (sd_set sd)). change (sd_reps (bare sd)) with (sd_reps sd).
  destruct (sd_timescale sd) as [ts|]; [|reflexivity]. cbn [bind]. destruct (set_duration (sd_set sd)) as [d|e]; [|reflexivity]. cbn [bind].
  destruct (match a_seg_duration a with None => _ | Some d0 => _ end) as [du|e]; [|reflexivity]. cbn [bind].
  destruct (sd_reps sd) as [|rd l]; [reflexivity|]. rewrite check_rep_bare.
  destruct (check_rep true (sd_set sd) ts du rd _ []) as [((a1, o1), z)|e]; [|reflexivity]. cbn [bind]. rewrite check_reps_bare. reflexivity.
Qed.
Lemma check_sets_bare : forall base l a, check_sets base (map bare l) a = check_sets base l a.
Proof.
  intros base l. induction l as [|sd l IH]; intros a; [reflexivity|]. cbn [map check_sets]. rewrite check_set_bare.
  destruct (check_set base sd a) as [(a1, m)|e]; [|reflexivity]. cbn [bind]. rewrite IH. reflexivity.
Qed.
Lemma source_analysis : forall fs parent name file root sets,
  manifest_says root sets -> directory (parent ++ "/" ++ name) -> no_slash name -> no_slash file ->
  Forall (set_there fs (parent ++ "/" ++ name)) sets ->
  exists vs, Forall2 (set_holds fs (parent ++ "/" ++ name)) sets vs /\
    analyze_source fs (parent ++ "/" ++ name ++ "/" ++ file) root = analyze name vs.
Proof.
  intros fs parent name file root sets M DB Nn Nf H. destruct (parse_source_reads root sets M) as (l & EP & R).
  destruct (source_media_is fs _ l sets [] R DB H) as (vs & Hvs & E). exists vs. split; [exact Hvs|].
  unfold analyze_source, analyze. rewrite EP. cbn [bind]. rewrite base_name_at by assumption.
  replace (parent ++ "/" ++ name ++ "/" ++ file) with ((parent ++ "/" ++ name) ++ "/" ++ file) by (rewrite !sapp_assoc; reflexivity).
  rewrite base_path_at by assumption. rewrite E. destruct (init_media vs []) as [sds|e]; [|reflexivity]. cbn [bares bind].
  rewrite check_sets_bare. reflexivity.
Qed.
