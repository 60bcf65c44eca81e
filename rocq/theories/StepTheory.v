(** Analyzed content as it is served (C75). *)
From Coq Require Import Permutation ZifyBool ZifyNat.
From Verif Require Import Base BaseProofs BytesModel BytesProofs StrModel BoxSpec Mp4Model Mp4Proofs ConfigModel ConfigProofs
  ProxyModel ProxySpec ProxyTheory MediaSpec MediaTheory HttpModel HttpSpec HttpTheory EndSpec EndTheory CacheProofs Mpd2Spec
  VodModel VodSpec VodTheory StepSpec StepProofs.
Local Open Scope string_scope.
Open Scope Z_scope.

Lemma url_names_plain : forall name id, url_names name id -> plain_name name.
Proof.
  intros name id (_ & _ & _ & H). unfold plain_name. destruct (split_first "_" name) as [(k & v)|] eqn:E.
  - apply split_first_is in E. destruct (str_in k url_cfg_keys) eqn:K; [|reflexivity]. exfalso.
    apply existsb_exists in K. destruct K as (k' & I & Q). apply String.eqb_eq in Q. subst k'. destruct (H _ I) as (_ & X). exact (X _ E).
  - destruct (str_in name url_cfg_keys) eqn:K; [|reflexivity]. exfalso.
    apply existsb_exists in K. destruct K as (k' & I & Q). apply String.eqb_eq in Q. subst k'. destruct (H _ I) as (X & _). congruence.
Qed.

(** In any session: a reply with one representation is the segment of the loop
    that the time asks for, and it ends less than 0.1 s off the grid. *)
Lemma C75_grid_pf : forall limit s name base sets cfg ms r ts default l x0 rest rq now sid history c rep n down rp,
  site_ok s -> published s name base sets cfg ms -> stream s name sets cfg ms r ts default l -> l = x0 :: rest ->
  admitted limit rq now -> hr_range rq = None ->
  provider_config s rq now = Ok c -> c_ext c = ".m4s" -> not_chunked c -> request_nr c = Ok n ->
  c_content_name c = name -> c_rel_path c = vr_id r -> c_reps c = [rep] -> rep_id rep = vr_id r ->
  going_down c (py_int_of_Q now) down ->
  fst (application limit s rq now sid (run limit s history [])) = Ok rp -> rp_status rp = 200 ->
  let d := vd_duration cfg in let i := media_start c n / d in
  exists x, nth_error l (Z.to_nat (i mod vd_n cfg)) = Some x /\
    let t := s_start x + i / vd_n cfg * (vd_n cfg * d) * ts in
    replied rp default t (s_dur x) /\ 10 * Z.abs (s_start x0 + (i + 1) * d * ts - (t + s_dur x)) < ts.
Proof.
  intros limit s name base sets cfg ms r ts default l x0 rest rq now sid history c rep n down rp
    SK (A & NA & SB & PI & v & RC & SV) (k & st & m & S & M & TY & IR & OI & -> & SG & TR & OF & ST) EL AD HR P EX NC RN CN RP CR ID G H OK d i.
  destruct (analyzed_reply base sets cfg ms v name k st m r l x0 rest default limit s rq now sid history c rep n down rp) as (_ & _ & X); auto.
Qed.

Lemma fetched_is : forall limit s name base sets cfg ms r ts default l x0 rest n rp,
  site_ok s -> published s name base sets cfg ms -> stream s name sets cfg ms r ts default l -> l = x0 :: rest ->
  url_names name (vr_id r) -> 0 <= n -> fetched limit s name (vr_id r) n rp ->
  0 < vd_duration cfg /\ 0 < vd_n cfg /\
  let d := vd_duration cfg in
  exists x, nth_error l (Z.to_nat (n mod vd_n cfg)) = Some x /\
    let t := s_start x + n / vd_n cfg * (vd_n cfg * d) * ts in
    replied rp default t (s_dur x) /\ 10 * Z.abs (s_start x0 + (n + 1) * d * ts - (t + s_dur x)) < ts.
Proof.
  intros limit s name base sets cfg ms r ts default l x0 rest n rp SK PU SM EL UN HN (rq & now & sid & history & first & AD & HR & NN & HP & NF & H & OK).
  assert (PN := url_names_plain _ _ UN). destruct UN as (N1 & N2 & N3 & _).
  pose proof PU as (A & NA & SB & PI & v & RC & SV). pose proof SM as (k & st & m & S & M & TY & IR & OI & ETS & SG & TR & OF & ST).
  destruct (VodProofs3.setup_back cfg v RC) as (F1 & F2 & F3 & DZ). destruct (SK _ _ SV) as (PD & PV).
  destruct (C54_roundtrip_partial_pf base sets cfg ms A NA SB PI DZ) as (v' & R' & _ & _ & _ & _ & _ & MM).
  rewrite RC in R'. injection R' as <-. destruct (MM k st m S M TY) as (_ & MR). specialize (MR r IR OI).
  destruct (default_config s rq now first name (vr_id r) _ _ v n HP NF N1 N2 PN N3 SV MR HN)
    as (c & P & f1 & f2 & f3 & f4 & f5 & f6 & f7 & f8 & f9 & f10 & f11 & f12 & f13 & f14 & f15 & f16 & f17 & f18 & f19 & f20 & f21).
  split; [lia|]. split; [lia|]. cbv zeta.
  assert (MS : media_start c n / vd_duration cfg = n).
  { unfold media_start, media_time_at_ast, first_nr. rewrite f13, f12, f6, F3. change (0 =? -1) with false. cbv iota. rewrite Z.sub_0_r. cbn [Z.add].
    apply Z.div_mul. lia. }
  pose proof (C75_grid_pf limit s name base sets cfg ms r ts default l x0 rest rq now sid history c _ n false rp SK PU SM EL AD HR P f1
    ltac:(intros q Q; rewrite f18 in Q; discriminate) f2 f5 f4 f3 eq_refl ltac:(apply gd_plain; intros u; rewrite f17; discriminate) H OK) as X.
  cbv zeta in X. rewrite MS in X. exact X.
Qed.

(** Segments of the same number end together in all representations: counted
    from the start of the representation, less than 0.2 s apart, however long the
    stream runs. *)
Lemma C75_in_step_partial_pf : forall limit s name base sets cfg ms r1 ts1 default1 l1 x1 rest1 r2 ts2 default2 l2 x2 rest2 n rp1 rp2,
  site_ok s -> published s name base sets cfg ms ->
  stream s name sets cfg ms r1 ts1 default1 l1 -> l1 = x1 :: rest1 -> url_names name (vr_id r1) ->
  stream s name sets cfg ms r2 ts2 default2 l2 -> l2 = x2 :: rest2 -> url_names name (vr_id r2) ->
  0 <= n -> fetched limit s name (vr_id r1) n rp1 -> fetched limit s name (vr_id r2) n rp2 ->
  exists t1 d1 t2 d2, replied rp1 default1 t1 d1 /\ replied rp2 default2 t2 d2 /\
    10 * Z.abs ((t1 + d1 - s_start x1) * ts2 - (t2 + d2 - s_start x2) * ts1) < 2 * (ts1 * ts2).
Proof.
  intros limit s name base sets cfg ms r1 ts1 default1 l1 x1 rest1 r2 ts2 default2 l2 x2 rest2 n rp1 rp2 SK PU S1 E1 U1 S2 E2 U2 HN F1 F2.
  destruct (fetched_is _ _ _ _ _ _ _ _ _ _ _ _ _ _ _ SK PU S1 E1 U1 HN F1) as (_ & _ & y1 & _ & R1 & B1).
  destruct (fetched_is _ _ _ _ _ _ _ _ _ _ _ _ _ _ _ SK PU S2 E2 U2 HN F2) as (_ & _ & y2 & _ & R2 & B2).
  do 4 eexists. split; [exact R1|]. split; [exact R2|].
  set (t1 := s_start y1 + _) in *. set (t2 := s_start y2 + _) in *. clearbody t1 t2. clear - B1 B2.
  set (g := (n + 1) * vd_duration cfg) in *. clearbody g.
  assert (P1 : 0 < ts1) by lia. assert (P2 : 0 < ts2) by lia.
  set (a := s_start x1 + g * ts1 - (t1 + s_dur y1)) in *. set (b := s_start x2 + g * ts2 - (t2 + s_dur y2)) in *.
  replace ((t1 + s_dur y1 - s_start x1) * ts2 - (t2 + s_dur y2 - s_start x2) * ts1) with (b * ts1 - a * ts2) by (unfold a, b; ring).
  assert (A : Z.abs (b * ts1 - a * ts2) <= Z.abs b * ts1 + Z.abs a * ts2).
  { assert (Q : Z.abs (b * ts1 - a * ts2) <= Z.abs (b * ts1) + Z.abs (a * ts2)) by lia.
    rewrite !Z.abs_mul, (Z.abs_eq ts1), (Z.abs_eq ts2) in Q by lia. exact Q. }
  nia.
Qed.

(** Where content is contiguous, segment n + 1 begins where segment n ended;
    where the loop begins again, less than 0.1 s from there. *)
Lemma C75_joint_pf : forall limit s name base sets cfg ms r ts default l n rp1 rp2,
  site_ok s -> published s name base sets cfg ms -> stream s name sets cfg ms r ts default l -> contiguous l ->
  url_names name (vr_id r) -> 0 <= n -> fetched limit s name (vr_id r) n rp1 -> fetched limit s name (vr_id r) (n + 1) rp2 ->
  exists t1 d1 t2 d2, replied rp1 default t1 d1 /\ replied rp2 default t2 d2 /\
    ((n + 1) mod vd_n cfg <> 0 -> t2 = t1 + d1) /\ 10 * Z.abs (t2 - (t1 + d1)) < ts.
Proof.
  intros limit s name base sets cfg ms r ts default l n rp1 rp2 SK PU SM CT UN HN F1 F2.
  assert (exists x0 rest, l = x0 :: rest) as (x0 & rest & EL).
  { destruct SM as (k & st & m & _ & _ & _ & _ & _ & _ & (NE & _) & _). destruct l; [contradiction|eauto]. }
  destruct (fetched_is _ _ _ _ _ _ _ _ _ _ _ _ _ _ _ SK PU SM EL UN HN F1) as (PD & PN & y1 & N1 & R1 & B1).
  destruct (fetched_is _ _ _ _ _ _ _ _ _ _ _ _ _ (n + 1) _ SK PU SM EL UN ltac:(lia) F2) as (_ & _ & y2 & N2 & R2 & B2).
  set (N := vd_n cfg) in *. set (d := vd_duration cfg) in *.
  do 4 eexists. split; [exact R1|]. split; [exact R2|].
  destruct (Z.eq_dec ((n + 1) mod N) 0) as [Z0|NZ].
  - split; [contradiction|]. rewrite Z0 in N2. rewrite EL in N2. cbn in N2. injection N2 as <-.
    assert (E := Z.div_mod (n + 1) N ltac:(lia)). rewrite Z0, Z.add_0_r in E.
    replace (s_start x0 + (n + 1) / N * (N * d) * ts) with (s_start x0 + (n + 1) * d * ts) by (rewrite E at 1; ring).
    exact B1.
  - assert (E := Z.div_mod n N ltac:(lia)). assert (M := Z.mod_pos_bound n N PN).
    assert (L : n mod N + 1 < N).
    { destruct (Z.eq_dec (n mod N + 1) N) as [Q|]; [|lia]. exfalso. apply NZ. replace (n + 1) with ((n / N + 1) * N) by nia. apply Z.mod_mul. lia. }
    assert (M2 : (n + 1) mod N = n mod N + 1) by (symmetry; apply Z.mod_unique with (q := n / N); lia).
    assert (D2 : (n + 1) / N = n / N) by (symmetry; apply Z.div_unique with (r := n mod N + 1); lia).
    rewrite M2 in N2. rewrite D2. replace (Z.to_nat (n mod N + 1)) with (Datatypes.S (Z.to_nat (n mod N))) in N2 by lia.
    assert (ST : s_start y2 = s_end y1).
    { clear - CT N1 N2. set (j := Z.to_nat (n mod N)) in *. clearbody j. revert l CT N1 N2. induction j as [|j IH]; intros l CT N1 N2; destruct l as [|q l]; try discriminate.
      - cbn in N1. injection N1 as ->. destruct l as [|w l]; [discriminate|]. cbn in N2. injection N2 as ->. destruct CT as (_ & _ & C). exact C.
      - destruct CT as (_ & C & _). eapply IH; eauto. }
    unfold s_end in ST. assert (TE : s_start y2 + n / N * (N * d) * ts = s_start y1 + n / N * (N * d) * ts + s_dur y1) by lia.
    split; [intros _; exact TE|]. rewrite TE, Z.sub_diag. cbn [Z.abs]. lia.
Qed.

(** ** Concrete content *)
Definition ex_frag_at (start duration : Z) : MediaSpec.fragment :=
  MediaSpec.mk_fragment [Leaf (bstr "mfhd") [0; 0; 0; 0; 0; 0; 0; 1]] [Leaf (bstr "tfhd") [0; 2; 0; 0; 0; 0; 0; 2]]
    ([0; 0; 0; 0] ++ be32 start)%list [Leaf (bstr "trun") ([0; 0; 1; 0; 0; 0; 0; 1] ++ be32 duration)%list] [].
Lemma be32_bytes : forall z, Forall (fun b => 0 <= b < 256) (be32 z).
Proof. intros z. unfold be32. repeat constructor; apply Z.mod_pos_bound; lia. Qed.
Lemma ex_file_spans : forall start duration, 0 <= start < 4294967296 -> 0 <= duration < 4294967296 ->
  exists l t d, ex_file start duration = encs l /\ segment_ok l /\ spans 1000 l t d.
Proof.
  intros start duration HS HD. exists (MediaSpec.seg [] (ex_frag_at start duration) [1; 2; 3] []), start, duration.
  split; [reflexivity|]. split.
  - unfold segment_ok, MediaSpec.seg, fr_moof, ex_frag_at. cbn [app fr_a fr_k1 fr_k2 fr_b fr_tfdt].
    repeat match goal with
    | |- boxes_ok _ _ (_ :: _) => split
    | |- boxes_ok _ _ [] => exact I
    | |- box_ok _ _ (Node _ _) => apply box_ok_node; split; [reflexivity|]; split; [simpl; auto|]; split; [reflexivity|]
    | |- box_ok _ _ (Leaf _ _) => split; [reflexivity|]; split; [cbn; intuition discriminate|]; split; [reflexivity|]; split
    end.
    + apply (L_mfhd [0; 0; 0; 0] [0; 0; 0; 1]); reflexivity.
    + intros _. repeat constructor; lia.
    + apply (L_tfhd [0; 2; 0; 0] [0; 0; 0; 2] [] [] [] []); reflexivity.
    + intros _. repeat constructor; lia.
    + apply (L_tfdt0 [0; 0; 0]); reflexivity.
    + intros _. do 4 (constructor; [lia|]). apply be32_bytes.
    + apply L_other. cbn [In]. intuition discriminate.
    + intros _. do 8 (constructor; [lia|]). apply be32_bytes.
    + apply L_other. cbn [In]. intuition discriminate.
    + intros K. exfalso. cbn in K. intuition discriminate.
  - exists [], (ex_frag_at start duration), [1; 2; 3], [0; 2; 0; 0; 0; 0; 0; 2], ([0; 0; 1; 0; 0; 0; 0; 1] ++ be32 duration)%list, 1000.
    split; [reflexivity|]. split; [constructor|]. split; [|split; [|split]].
    + exists [], [], [], []. split; [reflexivity|]. split; [reflexivity|]. cbn. repeat constructor; cbn; intuition discriminate.
    + apply (DT0 [0; 0; 0]); [reflexivity|exact HS].
    + apply (TD_trex 1000 [0; 2; 0; 0] [0; 0; 0; 2]); reflexivity.
    + replace duration with (sumZ (map fst [(duration, @nil Z)])) at 2 by (cbn; lia).
      replace ([0; 0; 1; 0; 0; 0; 0; 1] ++ be32 duration)%list
        with ([0; 0; 1; 0] ++ be32 (Z.of_nat (List.length [(duration, @nil Z)])) ++ [] ++ List.concat (map (fun s : Z * bytes => be32 (fst s) ++ snd s) [(duration, [])]))%list.
      * apply TT_each; try reflexivity. repeat constructor; cbn; lia.
      * cbn [map List.concat fst snd]. rewrite !app_nil_r. reflexivity.
Qed.
Lemma ex_files_in : forall durs nr start k file, In (k, file) (ex_files nr start durs) ->
  0 <= start -> Forall (fun d => 0 <= d) durs -> start + fold_right Z.add 0 durs < 4294967296 ->
  exists l t d, file = encs l /\ segment_ok l /\ spans 1000 l t d.
Proof.
  induction durs as [|d durs IH]; intros nr start k file I HS F L; [destruct I|]. inversion F as [|? ? F1 F2]; subst.
  cbn [fold_right] in L. assert (0 <= fold_right Z.add 0 durs) by (clear - F2; induction F2; cbn; lia).
  destruct I as [I|I]; [injection I as _ <-; apply ex_file_spans; lia|]. eapply IH; [exact I|lia|exact F2|lia].
Qed.
Lemma ex_one_fragment : forall id head first start durs, 0 <= start -> Forall (fun d => 0 <= d) durs -> start + fold_right Z.add 0 durs < 4294967296 ->
  one_fragment 1000 (mk_vrep id head (ex_files first start durs)).
Proof. intros id head first start durs A B C nr file I. eapply ex_files_in; [exact I|exact A|exact B|exact C]. Qed.
(** A site with the files of these representations. *)
Fixpoint ex_lookup (reps : list vrep) (rel : string) (nr : Z) : result bytes :=
  match reps with
  | [] => Err "FileNotFoundError"
  | r :: rest => if String.eqb (vr_id r) rel
                 then match file_nr nr (vr_files r) with Some b => Ok b | None => Err "FileNotFoundError" end
                 else ex_lookup rest rel nr
  end.
Definition ex_site_of (v : vodcfg) (reps : list vrep) : site :=
  mk_site (fun name => if String.eqb name "content" then Ok v else Err "KeyError")
    (fun _ rel nr ext => if String.eqb ext ".m4s" then ex_lookup reps rel nr else Err "FileNotFoundError")
    (fun _ _ _ => Err "FileNotFoundError") (fun _ _ _ => Err "KeyError") (fun why c now => "refused").
Lemma file_nr_in : forall files nr file, NoDup (map fst files) -> file_nr nr files = Some file <-> In (nr, file) files.
Proof.
  induction files as [|(k & b) files IH]; intros nr file N; cbn [file_nr]; [split; [discriminate|intros []]|].
  cbn [map fst] in N. inversion N as [|? ? N1 N2]; subst. destruct (Z.eqb_spec k nr) as [->|NE].
  - split; [intros H; injection H as ->; left; reflexivity|]. intros [H|H]; [congruence|]. exfalso. apply N1.
    change nr with (fst (nr, file)). apply in_map. exact H.
  - rewrite (IH _ _ N2). split; [right; assumption|]. intros [H|H]; [congruence|exact H].
Qed.
Lemma ex_stores : forall v reps r, NoDup (map vr_id reps) -> In r reps -> NoDup (map fst (vr_files r)) ->
  stores (ex_site_of v reps) "content" r.
Proof.
  intros v reps r N I F nr file _. cbn [ex_site_of st_files]. change (String.eqb ".m4s" ".m4s") with true. cbv iota.
  rewrite <- (file_nr_in _ _ _ F). induction reps as [|q reps IH]; [destruct I|]. cbn [map] in N. inversion N as [|? ? N1 N2]; subst.
  cbn [ex_lookup]. destruct I as [->|I].
  - rewrite String.eqb_refl. destruct (file_nr nr (vr_files r)); split; intros H; congruence.
  - destruct (String.eqb_spec (vr_id q) (vr_id r)) as [E|_]; [exfalso; apply N1; rewrite E; apply in_map; exact I|]. exact (IH N2 I).
Qed.
Definition all_reps (sets : list vset) : list vrep := flat_map vs_reps sets.
Definition ex_v : vodcfg := Eval vm_compute in match read_config (write_config ex_vod_data) with Ok v => v | Err _ => mkVod 0 0 0 0 [] end.
Definition step_site : site := Eval cbv [ex_v] in ex_site_of ex_v (all_reps ex_sets).
Definition ex_audio : list VodSpec.seg := [(1, 0, 2000); (2, 2000, 2000); (3, 4000, 2000)].
Lemma step_site_ok : site_ok step_site.
Proof. intros name v H. cbn in H. destruct (String.eqb name "content"); [|discriminate]. injection H as <-. split; reflexivity. Qed.
Lemma step_published : published step_site "content" "content" ex_sets ex_vod_data ex_tables.
Proof.
  split; [exact ex_analysis|]. split; [exact ex_named|]. split; [reflexivity|].
  split; [repeat constructor; apply plain_easy; reflexivity|]. eexists. split; [vm_compute; reflexivity|reflexivity].
Qed.
Lemma nodup_small : forall l : list Z, (fix ok l := match l with [] => true | x :: r => negb (existsb (Z.eqb x) r) && ok r end) l = true -> NoDup l.
Proof.
  induction l as [|x r IH]; intros H; [constructor|]. apply andb_prop in H. destruct H as (A & B). constructor; [|apply IH; exact B].
  intros I. apply negb_true_iff in A. assert (K : existsb (Z.eqb x) r = true) by (apply existsb_exists; exists x; split; [exact I|apply Z.eqb_refl]). congruence.
Qed.
Lemma nodup_strings : forall l : list string, (fix ok l := match l with [] => true | x :: r => negb (existsb (String.eqb x) r) && ok r end) l = true -> NoDup l.
Proof.
  induction l as [|x r IH]; intros H; [constructor|]. apply andb_prop in H. destruct H as (A & B). constructor; [|apply IH; exact B].
  intros I. apply negb_true_iff in A. assert (K : existsb (String.eqb x) r = true) by (apply existsb_exists; exists x; split; [exact I|apply String.eqb_refl]). congruence.
Qed.
Lemma ex_names : forall id, In id ["V300"; "V600"; "A48"] -> url_names "content" id.
Proof.
  intros id I. split; [unfold no_slash; cbn; intuition discriminate|]. split; [|split].
  - destruct I as [<-|[<-|[<-|[]]]]; unfold no_slash; cbn; intuition discriminate.
  - destruct I as [<-|[<-|[<-|[]]]]; reflexivity.
  - intros k K. split; [intros E; subst k; vm_compute in K; repeat (destruct K as [K|K]; [discriminate|]); destruct K|].
    intros v E. assert (P : split_first "_" "content" = None) by reflexivity. rewrite E in P.
    change (k ++ "_" ++ v) with (k ++ String "_" v) in P.
    rewrite split_first_key in P; [discriminate|]. apply keys_no_underscore. unfold str_in. apply existsb_exists. exists k. split; [exact K|apply String.eqb_refl].
Qed.
Ltac own_tac := intros s' I; cbn in I; repeat (destruct I as [I|I]; [subst s'; intros T J; cbn in T, J;
  first [exfalso; apply T; reflexivity | repeat (destruct J as [J|J]; [discriminate J|]); exact J]|]); destruct I.
Ltac stream_tac ki :=
  exists ki; do 2 eexists; split; [reflexivity|]; split; [reflexivity|]; split; [cbn; auto|]; split; [cbn; auto|];
  split; [own_tac|]; split; [reflexivity|]; split; [segments_tac|];
  split; [do 2 eexists; exists 1, 0, 16842752; split; [vm_compute; reflexivity|]; split; vm_compute; reflexivity|];
  split; [apply ex_one_fragment; [lia|repeat constructor; lia|reflexivity]|];
  apply ex_stores; [apply nodup_strings; reflexivity|cbn; auto 10|apply nodup_small; reflexivity].
Lemma step_video : stream step_site "content" ex_sets ex_vod_data ex_tables (ex_rep "V300" [2000; 2040; 1960]) 1000 1000 ex_list.
Proof. stream_tac 0%nat. Qed.
Lemma step_sound : stream step_site "content" ex_sets ex_vod_data ex_tables (ex_rep "A48" [2000; 2000; 2000]) 1000 1000 ex_audio.
Proof. stream_tac 1%nat. Qed.
Ltac fetch_tac path at_ :=
  exists (ex_request path None), at_, "", [], "livesim"; split; [left; reflexivity|]; split; [reflexivity|];
  split; [unfold Qle; cbn; lia|]; split; [reflexivity|]; split; [unfold no_slash; cbn; intuition discriminate|]; split; [vm_compute; reflexivity|reflexivity].
Example C75_grid_case : exists rp c rep,
  let rq := ex_request "/livesim/start_0/content/V300/10.m4s" None in
  provider_config step_site rq 40 = Ok c /\ not_chunked c /\ request_nr c = Ok 10 /\ c_reps c = [rep] /\ rep_id rep = "V300" /\
  going_down c 40 false /\ fst (application 0 step_site rq 40 "" (run 0 step_site [] [])) = Ok rp /\ rp_status rp = 200 /\
  media_start c 10 / vd_duration ex_vod_data = 10.
Proof.
  do 3 eexists. cbn zeta. split; [vm_compute; reflexivity|]. split; [intros q Q; discriminate|]. split; [vm_compute; reflexivity|].
  split; [reflexivity|]. split; [reflexivity|]. split; [apply gd_plain; intros u; discriminate|].
  split; [vm_compute; reflexivity|]. split; reflexivity.
Qed.
(** Segment 10 of video and audio, at different moments; V300 has a long second
    segment. *)
Example C75_in_step_partial_case : exists rp1 rp2,
  fetched 0 step_site "content" "V300" 10 rp1 /\ fetched 0 step_site "content" "A48" 10 rp2 /\
  stream step_site "content" ex_sets ex_vod_data ex_tables (ex_rep "V300" [2000; 2040; 1960]) 1000 1000 ex_list /\
  stream step_site "content" ex_sets ex_vod_data ex_tables (ex_rep "A48" [2000; 2000; 2000]) 1000 1000 ex_audio.
Proof.
  do 2 eexists. split; [fetch_tac "/livesim/content/V300/10.m4s" 40%Q|]. split; [fetch_tac "/livesim/content/A48/10.m4s" 50%Q|].
  split; [exact step_video|exact step_sound].
Qed.
Example C75_joint_case : exists rp1 rp2, contiguous ex_list /\ (10 + 1) mod vd_n ex_vod_data = 2 /\
  fetched 0 step_site "content" "V300" 10 rp1 /\ fetched 0 step_site "content" "V300" 11 rp2.
Proof.
  do 2 eexists. split; [exact ex_contiguous|]. split; [reflexivity|].
  split; [fetch_tac "/livesim/content/V300/10.m4s" 40%Q|fetch_tac "/livesim/content/V300/11.m4s" 40%Q].
Qed.

(** Nothing compares the starts of the representations: audio that starts 100 s
    later than video is accepted, and stays 100 s late. *)
Definition late_rep : vrep := mk_vrep "A48" ex_head (ex_files 1 100000 [2000; 2000; 2000]).
Definition late_sets : list vset := [ex_set "video" [ex_rep "V300" [2000; 2000; 2000]]; ex_set "audio" [late_rep]].
Definition late_out : vod_data * list mdata :=
  Eval vm_compute in match analyze "content" late_sets with Ok x => x | Err _ => (ex_vod_data, []) end.
Definition late_v : vodcfg := Eval vm_compute in match read_config (write_config (fst late_out)) with Ok v => v | Err _ => mkVod 0 0 0 0 [] end.
Definition late_site : site := Eval cbv [late_v] in ex_site_of late_v (all_reps late_sets).
Definition late_audio : list VodSpec.seg := [(1, 100000, 2000); (2, 102000, 2000); (3, 104000, 2000)].
Lemma C75_start_refuted_pf : exists s name base sets cfg ms r1 ts1 default1 l1 r2 ts2 default2 l2 n rp1 rp2 t1 d1 t2 d2,
  site_ok s /\ published s name base sets cfg ms /\
  stream s name sets cfg ms r1 ts1 default1 l1 /\ url_names name (vr_id r1) /\
  stream s name sets cfg ms r2 ts2 default2 l2 /\ url_names name (vr_id r2) /\
  fetched 0 s name (vr_id r1) n rp1 /\ fetched 0 s name (vr_id r2) n rp2 /\
  replied rp1 default1 t1 d1 /\ replied rp2 default2 t2 d2 /\
  100 * (ts1 * ts2) <= Z.abs ((t1 + d1) * ts2 - (t2 + d2) * ts1).
Proof.
  assert (SK : site_ok late_site).
  { intros name v H. cbn in H. destruct (String.eqb name "content"); [|discriminate]. injection H as <-. split; reflexivity. }
  assert (PU : published late_site "content" "content" late_sets (fst late_out) (snd late_out)).
  { split; [vm_compute; reflexivity|]. split; [repeat constructor; cbn; lia|]. split; [reflexivity|].
    split; [repeat constructor; apply plain_easy; reflexivity|]. eexists. split; [vm_compute; reflexivity|reflexivity]. }
  assert (S1 : stream late_site "content" late_sets (fst late_out) (snd late_out) (ex_rep "V300" [2000; 2000; 2000]) 1000 1000 ex_audio) by stream_tac 0%nat.
  assert (S2 : stream late_site "content" late_sets (fst late_out) (snd late_out) late_rep 1000 1000 late_audio) by stream_tac 1%nat.
  assert (exists rp1, fetched 0 late_site "content" "V300" 10 rp1) as (rp1 & F1) by (eexists; fetch_tac "/livesim/content/V300/10.m4s" 40%Q).
  assert (exists rp2, fetched 0 late_site "content" "A48" 10 rp2) as (rp2 & F2) by (eexists; fetch_tac "/livesim/content/A48/10.m4s" 40%Q).
  assert (U1 := ex_names "V300" ltac:(cbn; auto)). assert (U2 := ex_names "A48" ltac:(cbn; auto)).
  destruct (fetched_is _ _ _ _ _ _ _ _ _ _ _ _ _ _ _ SK PU S1 eq_refl U1 (ltac:(lia) : 0 <= 10) F1) as (_ & _ & x1 & X1 & R1 & _).
  destruct (fetched_is _ _ _ _ _ _ _ _ _ _ _ _ _ _ _ SK PU S2 eq_refl U2 (ltac:(lia) : 0 <= 10) F2) as (_ & _ & x2 & X2 & R2 & _).
  vm_compute in X1. injection X1 as <-. vm_compute in X2. injection X2 as <-.
  exists late_site, "content", "content", late_sets, (fst late_out), (snd late_out), (ex_rep "V300" [2000; 2000; 2000]), 1000, 1000, ex_audio,
    late_rep, 1000, 1000, late_audio, 10, rp1, rp2.
  do 4 eexists. split; [exact SK|]. split; [exact PU|]. split; [exact S1|]. split; [exact U1|]. split; [exact S2|]. split; [exact U2|].
  split; [exact F1|]. split; [exact F2|]. split; [exact R1|]. split; [exact R2|]. vm_compute. discriminate.
Qed.
(** The loop is as long as the first representation of the shortest set: a
    second representation with fewer files is accepted, and then missing. *)
Definition short_sets : list vset := [ex_set "video" [ex_rep "V300" [2000; 2000; 2000]; ex_rep "V600" [2000; 2000]]].
Definition short_out : vod_data * list mdata :=
  Eval vm_compute in match analyze "content" short_sets with Ok x => x | Err _ => (ex_vod_data, []) end.
Definition short_v : vodcfg := Eval vm_compute in match read_config (write_config (fst short_out)) with Ok v => v | Err _ => mkVod 0 0 0 0 [] end.
Definition short_site : site := Eval cbv [short_v] in ex_site_of short_v (all_reps short_sets).
Definition short_list : list VodSpec.seg := [(1, 0, 2000); (2, 2000, 2000)].
Lemma C75_missing_refuted_pf : exists s name base sets cfg ms r1 r2 ts default l1 l2 rq n now rp rp1,
  site_ok s /\ published s name base sets cfg ms /\
  stream s name sets cfg ms r1 ts default l1 /\ stream s name sets cfg ms r2 ts default l2 /\
  fetched 0 s name (vr_id r1) n rp1 /\ hr_path rq = segment_path "livesim" name (vr_id r2) n /\ hr_range rq = None /\
  (inject_Z ((n + 1) * vd_duration cfg) <= now <= inject_Z ((n + 2) * vd_duration cfg + vd_tsbd cfg))%Q /\
  fst (application 0 s rq now "" (run 0 s [] [])) = Ok rp /\ rp_status rp = 404.
Proof.
  exists short_site, "content", "content", short_sets, (fst short_out), (snd short_out), (ex_rep "V300" [2000; 2000; 2000]), (ex_rep "V600" [2000; 2000]),
    1000, 1000, ex_audio, short_list, (ex_request "/livesim/content/V600/11.m4s" None), 11, 40%Q.
  do 2 eexists. split.
  { intros name v H. cbn in H. destruct (String.eqb name "content"); [|discriminate]. injection H as <-. split; reflexivity. }
  split.
  { split; [vm_compute; reflexivity|]. split; [repeat constructor; cbn; lia|]. split; [reflexivity|].
    split; [repeat constructor; apply plain_easy; reflexivity|]. eexists. split; [vm_compute; reflexivity|reflexivity]. }
  split; [stream_tac 0%nat|]. split; [stream_tac 0%nat|]. split; [fetch_tac "/livesim/content/V300/11.m4s" 40%Q|].
  split; [reflexivity|]. split; [reflexivity|]. split; [split; unfold Qle; cbn; lia|]. split; [vm_compute; reflexivity|reflexivity].
Qed.
