(** Main lemmas of property C76: the analyzer finds the files that the manifest
    names. *)
From Coq Require Import ZifyBool ZifyNat.
From Verif Require Import Base BaseProofs BytesModel StrModel ConfigModel TimeModel Mp4Model InitModel MpdModel VodModel VodSpec SourceModel HttpModel HttpSpec
  XlinkProofs Mpd2Spec StepSpec SourceSpec SourceProofs SourceProofs2 SourceProofs3 VodTheory StepTheory.
Local Open Scope string_scope.
Open Scope Z_scope.

(** The analysis of a manifest file is the analysis of the representations with
    the files that its templates name. *)
Lemma C76_analysis_partial_pf : forall fs parent name file root sets,
  manifest_says root sets -> directory (parent ++ "/" ++ name) -> no_slash name -> no_slash file ->
  Forall (set_there fs (parent ++ "/" ++ name)) sets ->
  exists vs, Forall2 (set_holds fs (parent ++ "/" ++ name)) sets vs /\
    analyze_source fs (parent ++ "/" ++ name ++ "/" ++ file) root = analyze name vs.
Proof. exact source_analysis. Qed.

(** An example directory. *)
Definition ex_listing (files : list (Z * bytes)) : list (string * bytes) :=
  ("init.mp4", ex_head) :: map (fun p => (print_Z (fst p) ++ ".m4s", snd p)) files.
Definition ex_fs (dirs : list (string * list (string * bytes))) : filesystem := fun d => assoc d dirs.
Definition ex_template (init media : list (string * string)) : list (string * string) :=
  ([("initialization", written (mk_template "" init)); ("media", written (mk_template "" media)); ("duration", "4"); ("timescale", "2"); ("startNumber", "1")])%list.
Definition id_init : list (string * string) := [("RepresentationID", "/init.mp4")].
Definition id_media : list (string * string) := [("RepresentationID", "/"); ("Number", ".m4s")].
Definition ex_aset (t : list (string * string)) (ct id bw : string) : xml :=
  Elem "AdaptationSet" [("contentType", ct)] "" [Elem "SegmentTemplate" t "" []; Elem "Representation" [("id", id); ("bandwidth", bw)] "" []].
Definition ex_root (sets : list xml) : xml :=
  Elem "MPD" [("mediaPresentationDuration", "PT6S")] "" [Elem "Period" [] "" sets].
Definition src_v300 : list (string * bytes) := Eval vm_compute in ex_listing (ex_files 1 0 [2000; 2040; 1960]).
Definition src_a48 : list (string * bytes) := Eval vm_compute in ex_listing (ex_files 1 0 [2000; 2000; 2000]).
Definition src_fs : filesystem := ex_fs [("vod/content/V300", src_v300); ("vod/content/A48", src_a48)].
Definition src_root : xml :=
  ex_root [ex_aset (ex_template id_init id_media) "video" "V300" "300000"; ex_aset (ex_template id_init id_media) "audio" "A48" "48000"].
Definition src_listed (ct id bw : string) : listed_set := mk_listed ct 4 2 1 (mk_template "" id_init) (mk_template "" id_media) [(id, bw)].
Definition src_sets : list listed_set := [src_listed "video" "V300" "300000"; src_listed "audio" "A48" "48000"].
Lemma src_says : manifest_says src_root src_sets.
Proof.
  split; [reflexivity|]. split; [right; exists "PT6S", 6; split; reflexivity|]. cbn.
  repeat constructor; try (eexists; repeat split; try reflexivity; try discriminate);
  try (right; eexists; repeat split; try reflexivity; discriminate); try (eexists; repeat split; try reflexivity; discriminate).
Qed.
Lemma digits_unique : forall a b x y, all_digits a = true -> all_digits b = true -> a ++ String "." x = b ++ String "." y -> a = b /\ x = y.
Proof.
  intros a. induction a as [|c a IH]; intros b x y A B E.
  - destruct b as [|d b]; [injection E as E; auto|]. cbn [append] in E. injection E as <- _. cbn in B. discriminate.
  - destruct b as [|d b]; cbn [append] in E.
    + injection E as -> _. cbn in A. discriminate.
    + injection E as <- E. cbn [all_digits] in A, B. destruct (digit_val c); [|discriminate].
      destruct (IH b x y A B E) as (-> & ->). auto.
Qed.
Lemma ex_tidy : forall files, Forall (fun p => 0 <= fst p) files -> tidy "" ".m4s" (ex_listing files).
Proof.
  intros files F ds rest b D I. apply digits_all in D. destruct D as (N & D). destruct I as [I | I].
  - exfalso. assert (E := f_equal fst I). cbn [fst] in E. destruct ds as [|c ds]; [congruence|]. cbn [append] in E. injection E as <- _. cbn in D. discriminate.
  - apply in_map_iff in I. destruct I as (p & E & I). rewrite Forall_forall in F. specialize (F p I).
    assert (E1 : print_Z (fst p) ++ ".m4s" = ds ++ ".m4s" ++ rest) by exact (f_equal fst E).
    destruct (TimeProofs.print_Z_digits (fst p) F) as (P & _).
    destruct (digits_unique (print_Z (fst p)) ds "m4s" ("m4s" ++ rest) P D E1) as (<- & R). split; [|eauto].
    cbn [append] in R. injection R as R. congruence.
Qed.
Lemma ex_listed_nodup : forall files, Forall (fun p => 0 <= fst p) files -> NoDup (map fst files) -> NoDup (map fst (ex_listing files)).
Proof.
  intros files F N. cbn [ex_listing map fst]. constructor.
  - intros I. apply in_map_iff in I. destruct I as (q & E & I). apply in_map_iff in I. destruct I as (p & <- & I). cbn [fst] in E.
    rewrite Forall_forall in F. specialize (F p I). destruct (TimeProofs.print_Z_digits (fst p) F) as (P & _ & Z).
    destruct (print_Z (fst p)) as [|c s]; [congruence|]. cbn [append] in E. injection E as -> _. cbn in P. discriminate.
  - clear F. induction files as [|p files IH]; [constructor|]. inversion N; subst. cbn [map fst]. constructor; [|apply IH; assumption].
    intros I. apply in_map_iff in I. destruct I as (q & E & I). apply in_map_iff in I. destruct I as (p' & <- & I). cbn [fst] in E.
    apply H1. apply in_map_iff. exists p'. split; [|exact I].
    assert (G : forall a b c : string, a ++ c = b ++ c -> a = b).
    { intros a. induction a as [|x a IHa]; intros b c Q.
      - destruct b as [|y b]; [reflexivity|]. exfalso. assert (L := f_equal String.length Q). rewrite !len_app in L. cbn in L. lia.
      - destruct b as [|y b].
        + exfalso. assert (L := f_equal String.length Q). rewrite !len_app in L. cbn in L. lia.
        + cbn [append] in Q. injection Q as -> Q. f_equal. eauto. }
    apply G in E. apply print_Z_inj. exact E.
Qed.
Lemma ex_nrs : forall durs nr start, 0 <= nr -> Forall (fun p => 0 <= fst p) (ex_files nr start durs).
Proof. intros durs. induction durs as [|d durs IH]; intros nr start H; constructor; [exact H|]. apply IH. lia. Qed.
Lemma dir_easy : forall d c r, string_rev d = String c r -> c <> "/"%char -> directory d.
Proof.
  intros d c r E N. split.
  - intros ->. discriminate.
  - intros h ->. rewrite string_rev_append in E. cbn in E. injection E as E _. congruence.
Qed.
Ltac no_slash_tac := unfold no_slash, SourceSpec.lacks_char; cbn; intuition discriminate.
Ltac dir_tac := eapply dir_easy; [vm_compute; reflexivity|discriminate].
Ltac part_tac := constructor; [split; [reflexivity|split; [lacks_tac|discriminate]]|constructor].
Lemma ex_there : forall fs ct id bw durs, fs ("vod/content/" ++ id) = Some (ex_listing (ex_files 1 0 durs)) ->
  NoDup (map fst (ex_files 1 0 durs)) -> lacks_c "$" id -> lacks_c "%" id -> directory ("vod/content/" ++ id) -> relative (id ++ "/init.mp4") ->
  (forall c r, id = String c r -> c <> "/"%char) -> id <> "" ->
  set_there fs ("vod" ++ "/" ++ "content") (src_listed ct id bw).
Proof.
  intros fs ct id bw durs F N L1 L2 D R H NE.
  assert (C : contents fs ("vod/content/" ++ id) (ex_listing (ex_files 1 0 durs))).
  { split; [exact D|]. split; [exact F|]. apply ex_listed_nodup; [apply ex_nrs; lia|exact N]. }
  split; [split; [intros []|part_tac]|].
  split.
  { split; [intros []|]. exists [("RepresentationID", "/")], ".m4s", []. split; [reflexivity|]. split; [split; [lacks_tac|discriminate]|].
    split; [part_tac|constructor]. }
  constructor; [|constructor]. cbn [fst snd ls_init ls_media src_listed]. split.
  - split; [exact L1|]. split.
    + exists ex_head. exists ("vod/content/" ++ id), "init.mp4", (ex_listing (ex_files 1 0 durs)). split; [reflexivity|].
      split; [no_slash_tac|]. split; [exact C|left; reflexivity].
    + exists "", ".m4s", (ex_listing (ex_files 1 0 durs)). split; [|apply ex_tidy; apply ex_nrs; lia].
      exists ("vod/content/" ++ id). split; [intros n; reflexivity|]. split; [intros []|]. split; [no_slash_tac|]. split; [exact C|].
      split; [|apply lacks_c_app; split; [lacks_tac|exact L2]].
      intros c I. split; [intros []|]. intros J. cbn in I, J. intuition (subst; discriminate).
  - split; intros r E.
    + cbn in E. destruct id as [|c id']; [congruence|]. cbn in E. injection E as -> _. exact (H _ _ eq_refl eq_refl).
    + cbn in E. destruct id as [|c id']; [congruence|]. cbn in E. injection E as -> _. exact (H _ _ eq_refl eq_refl).
Qed.
Lemma src_there : Forall (set_there src_fs ("vod" ++ "/" ++ "content")) src_sets.
Proof.
  assert (N : forall id c r, id <> "" -> id = String c r -> In id ["V300"; "A48"] -> c <> "/"%char).
  { intros id c r _ E I. subst id. cbn in I. destruct I as [I|[I|[]]]; injection I as <- _; discriminate. }
  constructor; [|constructor; [|constructor]].
  - apply (ex_there src_fs "video" "V300" "300000" [2000; 2040; 1960]);
      [vm_compute; reflexivity|apply nodup_small; reflexivity|lacks_tac|lacks_tac|dir_tac|intros r E; discriminate|intros c r E; refine (N _ _ _ _ E _); [discriminate|cbn; auto]|discriminate].
  - apply (ex_there src_fs "audio" "A48" "48000" [2000; 2000; 2000]);
      [vm_compute; reflexivity|apply nodup_small; reflexivity|lacks_tac|lacks_tac|dir_tac|intros r E; discriminate|intros c r E; refine (N _ _ _ _ E _); [discriminate|cbn; auto]|discriminate].
Qed.

Example C76_analysis_partial_case : exists vs cfg ms, Forall2 (set_holds src_fs "vod/content") src_sets vs /\
  analyze_source src_fs "vod/content/Manifest.mpd" src_root = analyze "content" vs /\ analyze "content" vs = Ok (cfg, ms) /\ vd_n cfg = 3.
Proof.
  destruct (C76_analysis_partial_pf src_fs "vod" "content" "Manifest.mpd" src_root src_sets src_says ltac:(dir_tac) ltac:(no_slash_tac) ltac:(no_slash_tac) src_there)
    as (vs & H & E).
  exists vs. assert (A : exists cfg ms, analyze_source src_fs "vod/content/Manifest.mpd" src_root = Ok (cfg, ms) /\ vd_n cfg = 3).
  { do 2 eexists. split; [vm_compute; reflexivity|reflexivity]. }
  destruct A as (cfg & ms & A & B). exists cfg, ms. split; [exact H|]. split; [exact E|]. split; [|exact B].
  cbn [append] in E. rewrite E in A. exact A.
Qed.

(** The server then has the analyzed content: the configuration that was written
    describes the files it serves. *)
Lemma C76_served_partial_pf : forall fs parent name file root sets cfg ms s v,
  manifest_says root sets -> directory (parent ++ "/" ++ name) -> no_slash name -> no_slash file ->
  Forall (set_there fs (parent ++ "/" ++ name)) sets ->
  Forall (fun st => ls_media st = mk_template "" [("RepresentationID", "/"); ("Number", ".m4s")] /\
                    Forall (fun p => plain_id (fst p)) (ls_reps st)) sets ->
  strip name = name -> reads_from s name fs (parent ++ "/" ++ name) ->
  analyze_source fs (parent ++ "/" ++ name ++ "/" ++ file) root = Ok (cfg, ms) ->
  read_config (write_config cfg) = Ok v -> st_vod s name = Ok v ->
  exists vs, Forall2 (set_holds fs (parent ++ "/" ++ name)) sets vs /\ published s name name vs cfg ms /\
    Forall (fun vset => Forall (stores s name) (vs_reps vset)) vs.
Proof.
  intros fs parent name file root sets cfg ms s v M DB Nn Nf TH TM SN RF A RC SV.
  destruct (source_analysis fs parent name file root sets M DB Nn Nf TH) as (vs & HV & E). rewrite E in A.
  exists vs. split; [exact HV|]. clear E.
  assert (G : named vs /\ Forall (fun st => Forall (fun r => plain_id (vr_id r)) (vs_reps st)) vs /\
              Forall (fun vset => Forall (stores s name) (vs_reps vset)) vs).
  { clear - HV TM RF. unfold named. induction HV as [|st vs0 sets vs (_ & _ & _ & _ & HR) HV IH]; [repeat split; constructor|].
    inversion TM as [|? ? (TM1 & TM2) TM3]; subst. destruct (IH TM3) as (I1 & I2 & I3).
    assert (K : Forall (fun r => Forall (fun f => 0 <= fst f) (vr_files r) /\ plain_id (vr_id r) /\ stores s name r) (vs_reps vs0)).
    { clear - HR TM1 TM2 RF. induction HR as [|p r ps rs HP HR IH]; [constructor|]. inversion TM2; subst.
      constructor; [|apply IH; assumption]. destruct HP as (EI & _ & pre & post & l & (d & ED & Np & Nq & C & _) & _ & _ & IN). split.
      - apply Forall_forall. intros (n, b) I. apply IN in I. apply I.
      - split; [rewrite EI; assumption|]. intros n b P. pose proof (RF (vr_id r) n b P) as RF'. rewrite RF', IN, EI. rewrite TM1 in ED.
        assert (S : forall x, no_slash x -> parent ++ "/" ++ name ++ "/" ++ fst p = d /\ x ++ ".m4s" = pre ++ x ++ post).
        { intros x Nx. specialize (ED x).
          assert (R1 := rsplit_at d (pre ++ x ++ post)). assert (R2 := rsplit_at (parent ++ "/" ++ name ++ "/" ++ fst p) (x ++ ".m4s")).
          assert (Q : (parent ++ "/" ++ name ++ "/" ++ fst p) ++ "/" ++ x ++ ".m4s" = d ++ "/" ++ pre ++ x ++ post).
          { etransitivity; [|exact ED]. change (meant (fst p) (snd p) x (mk_template "" [("RepresentationID", "/"); ("Number", ".m4s")]))
              with (fst p ++ "/" ++ x ++ ".m4s" ++ ""). rewrite !sapp_assoc. reflexivity. }
          rewrite Q in R2. rewrite R1 in R2.
          - specialize (R2 ltac:(apply lacks_c_app; split; [exact Nx|lacks_tac])). injection R2 as -> R2. split; [reflexivity|congruence].
          - apply lacks_c_app. split; [exact Np|]. apply lacks_c_app. split; [exact Nx|exact Nq]. }
        assert (Np' : no_slash (print_Z n)).
        { destruct (print_digits n P) as (_ & D). intros J. apply D in J. cbn in J. lia. }
        destruct (S (print_Z n) Np') as (Ed & En). rewrite !sapp_assoc. cbn [append]. cbn [append] in Ed. rewrite Ed, En. split.
        + intros (l' & C' & I). split; [exact P|]. destruct C as (_ & F & _). destruct C' as (_ & F' & _). congruence.
        + intros (_ & I). exists l. split; assumption. }
    split; [|split].
    - constructor; [|exact I1]. eapply Forall_impl; [|exact K]. intros r (X & _). exact X.
    - constructor; [|exact I2]. eapply Forall_impl; [|exact K]. intros r (_ & X & _). exact X.
    - constructor; [|exact I3]. eapply Forall_impl; [|exact K]. intros r (_ & _ & X). exact X. }
  destruct G as (G1 & G2 & G3). split; [|exact G3]. split; [exact A|]. split; [exact G1|]. split; [exact SN|]. split; [exact G2|].
  exists v. split; assumption.
Qed.
Definition src_out : vod_data * list mdata :=
  Eval vm_compute in match analyze_source src_fs "vod/content/Manifest.mpd" src_root with Ok x => x | Err _ => (ex_vod_data, []) end.
Definition src_v : vodcfg := Eval vm_compute in match read_config (write_config (fst src_out)) with Ok v => v | Err _ => mkVod 0 0 0 0 [] end.
Definition src_site : site :=
  mk_site (fun name => if String.eqb name "content" then Ok src_v else Err "KeyError")
    (fun name rel nr ext => match src_fs ("vod/" ++ name ++ "/" ++ rel) with
       | Some l => match assoc (print_Z nr ++ ext) l with Some b => Ok b | None => Err "FileNotFoundError" end
       | None => Err "FileNotFoundError" end)
    (fun _ _ _ => Err "FileNotFoundError") (fun _ _ _ => Err "KeyError") (fun why c now => "refused").
Lemma src_contents : forall d l, src_fs d = Some l -> contents src_fs d l.
Proof.
  intros d l H. assert (G : directory d /\ NoDup (map fst l)); [|split; [apply G|]; split; [exact H|apply G]].
  unfold src_fs, ex_fs in H. cbn [assoc] in H.
  destruct (String.eqb_spec "vod/content/V300" d) as [<-|_]; [split; [dir_tac|injection H as <-; apply nodup_strings; reflexivity]|].
  destruct (String.eqb_spec "vod/content/A48" d) as [<-|_]; [split; [dir_tac|injection H as <-; apply nodup_strings; reflexivity]|discriminate].
Qed.
Lemma src_reads : reads_from src_site "content" src_fs ("vod" ++ "/" ++ "content").
Proof.
  intros id n b P. cbn [src_site st_files]. change ("vod/" ++ "content" ++ "/" ++ id) with (("vod" ++ "/" ++ "content") ++ "/" ++ id).
  set (d := ("vod" ++ "/" ++ "content") ++ "/" ++ id). destruct (src_fs d) as [l|] eqn:E.
  - assert (C := src_contents d l E). split.
    + intros H. exists l. split; [exact C|]. destruct (assoc (print_Z n ++ ".m4s") l) eqn:A; [|discriminate]. injection H as <-.
      apply VodProofs2.assoc_in. exact A.
    + intros (l' & (_ & F & N) & I). assert (l' = l) by congruence. subst l'. rewrite (VodProofs2.assoc_found _ _ _ _ N I). reflexivity.
  - split; [discriminate|]. intros (l & (_ & F & _) & _). congruence.
Qed.
Example C76_served_partial_case : exists cfg ms v,
  analyze_source src_fs "vod/content/Manifest.mpd" src_root = Ok (cfg, ms) /\ read_config (write_config cfg) = Ok v /\
  st_vod src_site "content" = Ok v /\ reads_from src_site "content" src_fs "vod/content" /\
  Forall (fun st => ls_media st = mk_template "" [("RepresentationID", "/"); ("Number", ".m4s")] /\
                    Forall (fun p => plain_id (fst p)) (ls_reps st)) src_sets.
Proof.
  exists (fst src_out), (snd src_out), src_v. split; [vm_compute; reflexivity|]. split; [vm_compute; reflexivity|]. split; [reflexivity|].
  split; [exact src_reads|]. repeat constructor; apply plain_easy; reflexivity.
Qed.

(** DASH writes the bandwidth as [$Bandwidth$]; the analyzer looks for
    [$bandwidth$].  All files are there, and the analysis fails. *)
Definition bw_init : list (string * string) := [("Bandwidth", "/init.mp4")].
Definition bw_media : list (string * string) := [("Bandwidth", "/"); ("Number", ".m4s")].
Definition bw_fs : filesystem := ex_fs [("vod/content/300000", src_v300)].
Definition bw_root : xml := ex_root [ex_aset (ex_template bw_init bw_media) "video" "V300" "300000"].
Definition bw_sets : list listed_set := [mk_listed "video" 4 2 1 (mk_template "" bw_init) (mk_template "" bw_media) [("V300", "300000")]].
Definition bw_vs : list vset := [mk_vset "video" 4 2 1 [ex_rep "V300" [2000; 2040; 1960]]].
Lemma C76_bandwidth_refuted_pf : exists fs root sets vs out,
  manifest_says root sets /\ Forall2 (set_holds fs "vod/content") sets vs /\ analyze "content" vs = Ok out /\
  analyze_source fs "vod/content/Manifest.mpd" root = Err "FileNotFoundError".
Proof.
  exists bw_fs, bw_root, bw_sets, bw_vs. eexists.
  assert (C : contents bw_fs "vod/content/300000" (ex_listing (ex_files 1 0 [2000; 2040; 1960]))).
  { split; [dir_tac|]. split; [vm_compute; reflexivity|]. apply ex_listed_nodup; [apply ex_nrs; lia|apply nodup_small; reflexivity]. }
  assert (T := ex_tidy (ex_files 1 0 [2000; 2040; 1960]) ltac:(apply ex_nrs; lia)).
  split; [|split; [|split; [vm_compute; reflexivity|vm_compute; reflexivity]]].
  - split; [reflexivity|]. split; [right; exists "PT6S", 6; split; reflexivity|]. cbn.
    repeat constructor; try (eexists; repeat split; try reflexivity; try discriminate);
    try (right; eexists; repeat split; try reflexivity; discriminate); try (eexists; repeat split; try reflexivity; discriminate).
  - constructor; [|constructor]. repeat split. constructor; [|constructor]. split; [reflexivity|]. split.
    + exists "vod/content/300000", "init.mp4", (ex_listing (ex_files 1 0 [2000; 2040; 1960])). split; [reflexivity|].
      split; [no_slash_tac|]. split; [exact C|left; reflexivity].
    + exists "", ".m4s", (ex_listing (ex_files 1 0 [2000; 2040; 1960])). split.
      { exists "vod/content/300000". split; [intros n; reflexivity|]. split; [intros []|]. split; [no_slash_tac|]. split; [exact C|].
        split; [|lacks_tac]. intros c I. split; [intros []|]. intros J. cbn in I, J. intuition (subst; discriminate). }
      split; [exact T|]. split; [apply nodup_small; reflexivity|]. intros n b.
      assert (TN := tidy_named _ _ _ T). rewrite <- (found_in "" ".m4s" _ n b TN).
      replace (found "" ".m4s" (ex_listing (ex_files 1 0 [2000; 2040; 1960]))) with (ex_files 1 0 [2000; 2040; 1960]) by (vm_compute; reflexivity).
      reflexivity.
Qed.
(** startNumber is 1 when it is absent; the analyzer fails on such a manifest. *)
Definition without_start (t : list (string * string)) : list (string * string) := filter (fun p => negb (String.eqb (fst p) "startNumber")) t.
Lemma C76_start_number_refuted_pf : exists fs t out,
  get "startNumber" (Elem "SegmentTemplate" t "" []) = Some "1" /\
  analyze_source fs "vod/content/Manifest.mpd" (ex_root [ex_aset t "video" "V300" "300000"]) = Ok out /\
  analyze_source fs "vod/content/Manifest.mpd" (ex_root [ex_aset (without_start t) "video" "V300" "300000"]) = Err "TypeError".
Proof. exists src_fs, (ex_template id_init id_media). eexists. split; [reflexivity|]. split; vm_compute; reflexivity. Qed.
(** A SegmentTemplate may be in the Representation; the analyzer then fails. *)
Lemma C76_level_refuted_pf : exists fs t out,
  analyze_source fs "vod/content/Manifest.mpd" (ex_root [ex_aset t "video" "V300" "300000"]) = Ok out /\
  analyze_source fs "vod/content/Manifest.mpd" (ex_root [Elem "AdaptationSet" [("contentType", "video")] ""
    [Elem "Representation" [("id", "V300"); ("bandwidth", "300000")] "" [Elem "SegmentTemplate" t "" []]]]) = Err "KeyError".
Proof. exists src_fs, (ex_template id_init id_media). eexists. split; vm_compute; reflexivity. Qed.
(** A name that only begins like the name of a segment counts as one: with a copy
    of a segment beside it, the analyzer reports a missing segment. *)
Lemma C76_copy_refuted_pf : exists l b out,
  analyze_source (ex_fs [("vod/content/V300", l)]) "vod/content/Manifest.mpd" (ex_root [ex_aset (ex_template id_init id_media) "video" "V300" "300000"]) = Ok out /\
  analyze_source (ex_fs [("vod/content/V300", l ++ [("2.m4s.bak", b)])%list]) "vod/content/Manifest.mpd"
    (ex_root [ex_aset (ex_template id_init id_media) "video" "V300" "300000"]) = Err "DashAnalyzerError".
Proof. exists src_v300, []. eexists. split; vm_compute; reflexivity. Qed.
(** A file with a leading zero in its number is counted in the search for gaps,
    and not found afterwards: the analysis goes well and the loop ends there. *)
Lemma C76_zero_refuted_pf : exists l b cfg ms,
  In ("02.m4s", b) l /\ In ("3.m4s", b) l /\
  analyze_source (ex_fs [("vod/content/V300", l)]) "vod/content/Manifest.mpd" (ex_root [ex_aset (ex_template id_init id_media) "video" "V300" "300000"]) = Ok (cfg, ms) /\
  vd_n cfg = 1.
Proof.
  exists (ex_listing [(1, ex_file 0 2000)] ++ [("02.m4s", ex_file 4000 2000); ("3.m4s", ex_file 4000 2000)])%list, (ex_file 4000 2000).
  do 2 eexists. split; [right; right; left; reflexivity|]. split; [right; right; right; left; reflexivity|]. split; vm_compute; reflexivity.
Qed.
