(** More lemmas about VodModel.v: uniqueness, names, the configuration file. *)
From Coq Require Import Permutation ZifyBool ZifyNat.
From Verif Require Import Base BaseProofs BytesModel ConfigModel InitModel MediaModel Mp4Model TimelineModel TimelineSpec
  VodModel VodSpec VodProofs.
Local Open Scope string_scope.
Open Scope Z_scope.

(** *** The segments of a representation are determined *)
Lemma track_det : forall init t d t' d', track init t d -> track init t' d' -> t = t' /\ d = d'.
Proof.
  intros init t d t' d' (o & st & a & b & c & H & T & X) (o' & st' & a' & b' & c' & H' & T' & X').
  rewrite H in H'. injection H' as <- <-. rewrite X in X'. injection X' as <- <- <- <-. split; congruence.
Qed.
Lemma timed_det : forall x f s d s' d', timed x f s d -> timed x f s' d' -> s = s' /\ d = d'.
Proof.
  intros x f s d s' d' (o & st & H & S & D) (o' & st' & H' & S' & D'). rewrite H in H'. injection H' as <- <-. split; congruence.
Qed.
Lemma nodup_fst : forall A (l : list (Z * A)) k a b, NoDup (map fst l) -> In (k, a) l -> In (k, b) l -> a = b.
Proof.
  intros A l. induction l as [|(j & x) l IH]; intros k a b N H K; [destruct H|]. cbn [map fst] in N. inversion N as [|? ? N1 N2]; subst.
  destruct H as [H|H], K as [K|K].
  - congruence.
  - injection H as -> ->. exfalso. apply N1. apply in_map_iff. exists (k, b). auto.
  - injection K as -> ->. exfalso. apply N1. apply in_map_iff. exists (k, a). auto.
  - eauto.
Qed.
Lemma count_nodup : forall n f, NoDup (count_up f n).
Proof.
  intros n. induction n as [|n IH]; intros f; cbn [count_up]; [constructor|]. constructor; [|apply IH].
  intros H. apply count_in in H. lia.
Qed.
Lemma segments_det : forall r ts ts' first l l', segments_of r ts first l -> segments_of r ts' first l' -> l = l' /\ ts = ts'.
Proof.
  intros r ts ts' first l l' (NE & N & P & d & T & F) (NE' & N' & P' & d' & T' & F').
  destruct (track_det _ _ _ _ _ T T') as (<- & <-). split; [|reflexivity].
  assert (L : List.length l = List.length l').
  { rewrite <- (map_length s_nr l), <- (map_length s_nr l'), <- (Permutation_length P), <- (Permutation_length P'). reflexivity. }
  assert (ND : NoDup (map fst (vr_files r))).
  { eapply Permutation_NoDup; [symmetry; exact P|]. rewrite (numbered_count _ _ N). apply count_nodup. }
  clear P P' NE NE' T T'. revert first l' N N' F F' L. induction l as [|s l IH]; intros first l' N N' F F' L.
  - destruct l'; [reflexivity|discriminate].
  - destruct l' as [|s' l']; [discriminate|]. inversion F as [|? ? (f & I & M) F2]; subst. inversion F' as [|? ? (f' & I' & M') F2']; subst.
    destruct N as (N1 & N2), N' as (N1' & N2'). rewrite N1 in I. rewrite N1' in I'.
    pose proof (nodup_fst _ _ _ _ _ ND I I'). subst f'. destruct (timed_det _ _ _ _ _ _ M M') as (A & B).
    f_equal; [|eapply IH; eauto].
    destruct s as ((x & y) & z), s' as ((x' & y') & z'). cbn in *. congruence.
Qed.

(** *** Results by position *)
Lemma results_nth : forall d first sets ms ns, results d first sets ms ns ->
  forall k s m, nth_error sets k = Some s -> nth_error ms k = Some m ->
  exists n, nth_error ns k = Some n /\ set_result d first s m n.
Proof.
  intros d first sets ms ns R. induction R as [|s0 m0 n0 sets ms ns H R IH]; intros k s m S M; destruct k as [|k]; try discriminate; cbn in *.
  - injection S as <-. injection M as <-. eauto.
  - eauto.
Qed.
Lemma results_length : forall d first sets ms ns, results d first sets ms ns -> List.length ms = List.length sets /\ List.length ns = List.length sets.
Proof. intros d first sets ms ns R. induction R as [|? ? ? ? ? ? H R IH]; cbn; [auto|]. destruct IH. auto. Qed.

(** *** Names *)
Lemma dat_names : forall base sds a a' ms, check_sets base sds a = Ok (a', ms) ->
  Forall (fun m => md_dat m = base ++ "_" ++ md_type m ++ ".dat") ms.
Proof.
  intros base sds. induction sds as [|sd sds IH]; intros a a' ms H; cbn [check_sets] in H.
  - injection H as <- <-. constructor.
  - apply bind_ok in H. destruct H as ((a1 & m) & C & H). apply bind_ok in H. destruct H as ((a2 & ms') & CS & H). injection H as <- <-.
    constructor; [|eapply IH; eassumption]. unfold check_set in C.
    apply bind_ok in C. destruct C as (ts & _ & C). apply bind_ok in C. destruct C as (d & _ & C). apply bind_ok in C. destruct C as (d' & _ & C).
    destruct (sd_reps sd) as [|rd rds]; [discriminate|].
    apply bind_ok in C. destruct C as (((x & y) & t) & _ & C). apply bind_ok in C. destruct C as ((u & v) & _ & C). injection C as <- <-. reflexivity.
Qed.
Lemma str_in_iff : forall x l, str_in x l = true <-> In x l.
Proof.
  intros x l. unfold str_in. rewrite existsb_exists. split.
  - intros (y & I & E). apply String.eqb_eq in E. subst y. exact I.
  - intros I. exists x. split; [exact I|apply String.eqb_refl].
Qed.
Lemma types_distinct : forall sets seen sds, init_media sets seen = Ok sds ->
  NoDup (map vs_type sets) /\ forall t, In t (map vs_type sets) -> ~ In t seen.
Proof.
  intros sets. induction sets as [|s sets IH]; intros seen sds H; cbn [init_media] in H.
  - split; [constructor|intros t []].
  - destruct (str_in (vs_type s) seen) eqn:S; [discriminate|]. apply bind_ok in H. destruct H as ((rds & ts) & _ & H).
    apply bind_ok in H. destruct H as (l & L & _). destruct (IH _ _ L) as (N & D). cbn [map]. split.
    + constructor; [|exact N]. intros I. apply (D _ I). left. reflexivity.
    + intros t [<-|I] K.
      * apply str_in_iff in K. congruence.
      * apply (D _ I). right. exact K.
Qed.
Lemma analyze_names : forall base sets cfg ms, analyze base sets = Ok (cfg, ms) ->
  NoDup (map vs_type sets) /\ Forall (fun m => md_dat m = base ++ "_" ++ md_type m ++ ".dat") ms.
Proof.
  intros base sets cfg ms H. unfold analyze in H. apply bind_ok in H. destruct H as (sds & I & H).
  apply bind_ok in H. destruct H as ((a & ms') & C & H). split; [exact (proj1 (types_distinct _ _ _ I))|].
  destruct (a_last_good a); [discriminate|]. destruct (a_seg_duration a); [|discriminate]. injection H as <- <-. eapply dat_names. exact C.
Qed.

(** *** Stripping *)
Lemma lstrip_suffix : forall s, exists p, s = p ++ lstrip s.
Proof.
  intros s. induction s as [|c s IH]; [exists ""; reflexivity|]. cbn [lstrip]. destruct (is_space c).
  - destruct IH as (p & E). exists (String c p). cbn [append]. rewrite <- E. reflexivity.
  - exists "". reflexivity.
Qed.
Lemma length_app : forall a b, String.length (a ++ b) = (String.length a + String.length b)%nat.
Proof. intros a b. induction a as [|c a IH]; [reflexivity|]. cbn. rewrite IH. reflexivity. Qed.
Lemma lstrip_short : forall s, (String.length (lstrip s) <= String.length s)%nat.
Proof. intros s. destruct (lstrip_suffix s) as (p & E). rewrite E at 2. rewrite length_app. lia. Qed.
Lemma lstrip_same : forall s, String.length (lstrip s) = String.length s -> lstrip s = s.
Proof.
  intros s L. destruct (lstrip_suffix s) as (p & E). destruct p as [|c p]; [exact (eq_sym E)|].
  apply (f_equal String.length) in E. rewrite length_app in E. cbn in E. lia.
Qed.
Lemma rev_length : forall s, String.length (string_rev s) = String.length s.
Proof. intros s. induction s as [|c s IH]; [reflexivity|]. rewrite string_rev_cons, length_app, IH. cbn. lia. Qed.
Definition tight (s : string) : Prop := lstrip s = s /\ lstrip (string_rev s) = string_rev s.
Lemma strip_tight : forall s, strip s = s <-> tight s.
Proof.
  intros s. unfold strip, tight. split.
  - intros H. pose proof (f_equal String.length H) as L. rewrite rev_length in L.
    pose proof (lstrip_short (string_rev (lstrip s))) as A. rewrite rev_length in A. pose proof (lstrip_short s) as B.
    assert (E : lstrip s = s) by (apply lstrip_same; lia). split; [exact E|]. rewrite E in *. apply lstrip_same. rewrite rev_length. lia.
  - intros (A & B). rewrite A, B. apply string_rev_involutive.
Qed.
Lemma lstrip_app : forall a b, lstrip a = a -> lstrip b = b -> lstrip (a ++ b) = a ++ b.
Proof.
  intros a b A B. destruct a as [|c a]; [exact B|]. cbn [append lstrip] in *. destruct (is_space c) eqn:S; [|reflexivity].
  exfalso. pose proof (lstrip_short a) as L. rewrite A in L. cbn in L. lia.
Qed.
Lemma tight_app : forall a b, tight a -> tight b -> tight (a ++ b).
Proof. intros a b (A & A') (B & B'). split; [apply lstrip_app; assumption|]. rewrite string_rev_append. apply lstrip_app; assumption. Qed.
Lemma tight_join : forall l, Forall (fun x => strip x = x) l -> strip (join "," l) = join "," l.
Proof.
  intros l F. apply strip_tight. induction F as [|x l X F IH]; [split; reflexivity|]. apply strip_tight in X.
  destruct l as [|y l]; [exact X|]. change (tight (x ++ ("," ++ join "," (y :: l)))). apply tight_app; [exact X|]. apply tight_app; [split; reflexivity|exact IH].
Qed.
Lemma split_comma : forall s, ~ In ","%char (list_ascii_of_string s) -> split_all "," s = [s].
Proof.
  intros s. induction s as [|a s IH]; intros N; cbn [split_all]; [reflexivity|]. cbn [list_ascii_of_string In] in N.
  destruct (Ascii.eqb_spec a ","%char) as [E|E]; [exfalso; apply N; left; exact E|]. rewrite IH; [reflexivity|]. intros K. apply N. right. exact K.
Qed.
Lemma split_comma_app : forall s r, ~ In ","%char (list_ascii_of_string s) -> split_all "," (s ++ String "," r) = s :: split_all "," r.
Proof.
  intros s. induction s as [|a s IH]; intros r N; cbn [append split_all]; [reflexivity|]. cbn [list_ascii_of_string In] in N.
  destruct (Ascii.eqb_spec a ","%char) as [E|E]; [exfalso; apply N; left; exact E|]. rewrite IH; [reflexivity|]. intros K. apply N. right. exact K.
Qed.
Lemma list_back : forall l, l <> [] -> Forall plain_id l -> map strip (split_all "," (strip (join "," l))) = l.
Proof.
  intros l NE F. rewrite tight_join; [|eapply Forall_impl; [|exact F]; intros x X; exact (proj2 X)].
  induction F as [|x l X F IH]; [contradiction|]. destruct X as (X & Y). destruct l as [|y l].
  - cbn [join]. rewrite split_comma by exact X. cbn [map]. rewrite Y. reflexivity.
  - change (join "," (x :: y :: l)) with (x ++ String "," (join "," (y :: l))). rewrite split_comma_app by exact X.
    cbn [map]. rewrite Y. f_equal. apply IH. discriminate.
Qed.

(** *** Reading the configuration file back *)
(** What read_config is expected to give for a set. *)
Definition media_of (m : mdata) : media := mkMedia (md_timescale m) (md_reps m) (Some (md_total m)) (Some (md_dat m)).
Definition writable (m : mdata) : Prop := md_reps m <> [] /\ Forall plain_id (md_reps m) /\ strip (md_dat m) = md_dat m.
Lemma int_back : forall f s o z, ini_get f s o = Ok (print_Z z) -> ini_int f s o = Ok z.
Proof. intros f s o z H. unfold ini_int. rewrite H. apply py_int_print. Qed.
Lemma assoc_app : forall A (k : string) (l r : list (string * A)), assoc k (l ++ r)%list = match assoc k l with Some x => Some x | None => assoc k r end.
Proof. intros A k l r. induction l as [|(j & x) l IH]; [reflexivity|]. cbn. destruct (String.eqb j k); [reflexivity|exact IH]. Qed.
Lemma media_section_assoc : forall media ct k, assoc k (media_section media ct) =
  if String.eqb ct k then match assoc ct media with Some m => Some [("representations", strip (join "," (md_reps m)));
             ("timescale", print_Z (md_timescale m)); ("total_duration", print_Z (md_total m)); ("dat_file", strip (md_dat m))] | None => None end else None.
Proof. intros media ct k. unfold media_section. destruct (assoc ct media); cbn; destruct (String.eqb ct k); reflexivity. Qed.
Lemma section_of : forall cfg ct, In ct ["video"; "audio"; "subtitles"] ->
  assoc ct (write_config cfg) = match assoc ct (vd_media cfg) with Some m => Some [("representations", strip (join "," (md_reps m)));
             ("timescale", print_Z (md_timescale m)); ("total_duration", print_Z (md_total m)); ("dat_file", strip (md_dat m))] | None => None end.
Proof.
  intros cfg ct H. unfold write_config. cbn [flat_map]. rewrite app_nil_r.
  destruct H as [<-|[<-|[<-|[]]]]; cbn [assoc String.eqb Ascii.eqb Bool.eqb]; rewrite !assoc_app, !media_section_assoc; cbn [String.eqb Ascii.eqb Bool.eqb];
   try (destruct (assoc "video" (vd_media cfg)); reflexivity); try (destruct (assoc "audio" (vd_media cfg)); reflexivity);
   try (destruct (assoc "subtitles" (vd_media cfg)); reflexivity).
Qed.
Lemma no_image : forall cfg, assoc "image" (write_config cfg) = None.
Proof. intros cfg. unfold write_config. cbn [flat_map]. rewrite app_nil_r. cbn [assoc String.eqb Ascii.eqb Bool.eqb]. rewrite !assoc_app, !media_section_assoc. reflexivity. Qed.
Lemma media_back : forall cfg ct, In ct ["video"; "audio"; "subtitles"] ->
  (forall m, assoc ct (vd_media cfg) = Some m -> writable m) ->
  read_media (write_config cfg) "1.1" ct = Ok match assoc ct (vd_media cfg) with Some m => [(ct, media_of m)] | None => [] end.
Proof.
  intros cfg ct I W. unfold read_media, ini_int, ini_get. rewrite section_of by exact I. destruct (assoc ct (vd_media cfg)) as [m|].
  - destruct (W m eq_refl) as (A & B & C). cbn [assoc String.eqb Ascii.eqb Bool.eqb bind]. rewrite !py_int_print. cbn [bind String.eqb Ascii.eqb Bool.eqb].
    rewrite list_back by assumption. rewrite C. reflexivity.
  - cbn [bind]. reflexivity.
Qed.
Lemma config_back : forall cfg, vd_duration cfg <> 0 -> (forall ct m, assoc ct (vd_media cfg) = Some m -> writable m) ->
  read_config (write_config cfg) = Ok (mkVod (vd_first cfg) (vd_n cfg) (vd_duration cfg) (vd_tsbd cfg)
    (flat_map (fun ct => match assoc ct (vd_media cfg) with Some m => [(ct, media_of m)] | None => [] end) ["video"; "audio"; "subtitles"])).
Proof.
  intros cfg D W. unfold read_config.
  assert (S : assoc "Setup" (write_config cfg) = Some [("default_tsbd_secs", print_Z (vd_tsbd cfg));
                ("segment_duration_s", print_Z (vd_duration cfg));
                ("nr_segments_in_loop", print_Z (vd_n cfg));
                ("first_segment_in_loop", print_Z (vd_first cfg))]) by reflexivity.
  assert (G : ini_get (write_config cfg) "General" "version" = Ok "1.1") by reflexivity.
  rewrite G. cbn [bind]. change (str_in "1.1" ["1.0"; "1.1"]) with true. cbv iota.
  assert (I1 : ini_int (write_config cfg) "Setup" "first_segment_in_loop" = Ok (vd_first cfg)) by (apply int_back; unfold ini_get; rewrite S; reflexivity).
  assert (I2 : ini_int (write_config cfg) "Setup" "segment_duration_s" = Ok (vd_duration cfg)) by (apply int_back; unfold ini_get; rewrite S; reflexivity).
  assert (I3 : ini_int (write_config cfg) "Setup" "nr_segments_in_loop" = Ok (vd_n cfg)) by (apply int_back; unfold ini_get; rewrite S; reflexivity).
  assert (I4 : ini_int (write_config cfg) "Setup" "default_tsbd_secs" = Ok (vd_tsbd cfg)) by (apply int_back; unfold ini_get; rewrite S; reflexivity).
  assert (I5 : ini_int (write_config cfg) "Setup" "segment_duration_ms" = Err "NoOptionError") by (unfold ini_int, ini_get; rewrite S; reflexivity).
  assert (IM : read_media (write_config cfg) "1.1" "image" = Ok []) by (unfold read_media, ini_get; rewrite no_image; reflexivity).
  rewrite I1. cbn [bind]. rewrite I2. cbn [bind]. rewrite I5. cbn [bind String.eqb Ascii.eqb Bool.eqb].
  destruct (Z.eqb_spec (vd_duration cfg) 0) as [|_]; [contradiction|]. cbn [andb]. rewrite I3. cbn [bind]. rewrite I4. cbn [bind read_medias].
  rewrite !(media_back cfg "video"), !(media_back cfg "audio"), !(media_back cfg "subtitles"), IM by (first [cbn; tauto|intros m; apply W]).
  cbn [bind flat_map app]. rewrite ?app_nil_r. reflexivity.
Qed.

(** *** The sets of the configuration *)
Definition all_media (ms : list mdata) : list (string * mdata) := map (fun m => (md_type m, m)) ms.
Lemma results_types : forall d first sets ms ns, results d first sets ms ns -> map md_type ms = map vs_type sets.
Proof. intros d first sets ms ns R. induction R as [|s m n sets ms ns H R IH]; [reflexivity|]. cbn [map]. rewrite IH. destruct H as (-> & _). reflexivity. Qed.
Lemma assoc_found : forall A (l : list (string * A)) k x, NoDup (map fst l) -> In (k, x) l -> assoc k l = Some x.
Proof.
  intros A l k x. induction l as [|(j & y) l IH]; intros N I; [destruct I|]. cbn [map fst] in N. inversion N as [|? ? N1 N2]; subst. cbn [assoc].
  destruct I as [I|I].
  - injection I as -> ->. rewrite String.eqb_refl. reflexivity.
  - destruct (String.eqb_spec j k) as [->|]; [|auto]. exfalso. apply N1. apply in_map_iff. exists (k, x). auto.
Qed.
Lemma assoc_in : forall A (l : list (string * A)) k x, assoc k l = Some x -> In (k, x) l.
Proof.
  intros A l k x. induction l as [|(j & y) l IH]; intros H; [discriminate|]. cbn [assoc] in H. destruct (String.eqb_spec j k) as [->|].
  - injection H as ->. left. reflexivity.
  - right. auto.
Qed.
Lemma pick_assoc : forall (all : list (string * mdata)) ct,
  assoc ct (flat_map (fun ct => match assoc ct all with Some m => [(ct, m)] | None => [] end) ["video"; "audio"])
  = if str_in ct ["video"; "audio"] then assoc ct all else None.
Proof.
  intros all ct. cbn [flat_map]. rewrite app_nil_r, assoc_app. unfold str_in. cbn [existsb].
  rewrite (String.eqb_sym ct "video"), (String.eqb_sym ct "audio").
  destruct (String.eqb_spec "video" ct) as [<-|A].
  - cbn [orb]. destruct (assoc "video" all) as [m|]; [reflexivity|]. destruct (assoc "audio" all) as [m|]; reflexivity.
  - destruct (String.eqb_spec "audio" ct) as [<-|B].
    + cbn [orb]. destruct (assoc "video" all) as [m|]; cbn [assoc String.eqb Ascii.eqb Bool.eqb]; (destruct (assoc "audio" all) as [m'|]; reflexivity).
    + cbn [orb]. rewrite <- String.eqb_neq in A, B. destruct (assoc "video" all) as [m|]; cbn [assoc]; rewrite ?A; (destruct (assoc "audio" all) as [m'|]; cbn [assoc]; rewrite ?B; reflexivity).
Qed.
Lemma content_found : forall (l : list (string * media)) k m r, In (k, m) l -> In r (m_reps m) ->
  (forall k' m', In (k', m') l -> In r (m_reps m') -> (k', m') = (k, m)) ->
  content_type_for_rep l r = Some (k, m).
Proof.
  intros l k m r. induction l as [|(j & y) l IH]; intros I R U; [destruct I|]. cbn [content_type_for_rep].
  destruct (str_in r (m_reps y)) eqn:S.
  - apply str_in_iff in S. rewrite (U j y); [reflexivity|left; reflexivity|exact S].
  - destruct I as [I|I].
    + injection I as -> ->. apply str_in_iff in R. congruence.
    + apply IH; [exact I|exact R|]. intros k' m' I' R'. apply U; [right; exact I'|exact R'].
Qed.
Lemma results_in : forall d first sets ms ns, results d first sets ms ns -> forall m, In m ms ->
  exists s n, In s sets /\ set_result d first s m n.
Proof.
  intros d first sets ms ns R. induction R as [|s0 m0 n0 sets ms ns H R IH]; intros m I; [destruct I|].
  destruct I as [<-|I].
  - exists s0, n0. split; [left; reflexivity|exact H].
  - destruct (IH m I) as (s & n & A & B). exists s, n. split; [right; exact A|exact B].
Qed.
Lemma config_whole : forall base sets cfg ms, analyze base sets = Ok (cfg, ms) -> named sets -> strip base = base ->
  Forall (fun s => Forall (fun r => plain_id (vr_id r)) (vs_reps s)) sets -> vd_duration cfg <> 0 ->
  exists v, read_config (write_config cfg) = Ok v /\ v_first v = vd_first cfg /\ v_n v = vd_n cfg /\ v_dur v = vd_duration cfg /\
    v_tsbd v = vd_tsbd cfg /\ NoDup (map fst (v_media v)) /\
    forall k s m, nth_error sets k = Some s -> nth_error ms k = Some m -> In (vs_type s) ["video"; "audio"] ->
    let entry := mkMedia (md_timescale m) (map vr_id (vs_reps s)) (Some (md_total m)) (Some (md_dat m)) in
    In (vs_type s, entry) (v_media v) /\
    forall r, In r (vs_reps s) ->
      (forall s', In s' sets -> vs_type s' <> vs_type s -> ~ In (vr_id r) (map vr_id (vs_reps s'))) ->
      content_type_for_rep (v_media v) (vr_id r) = Some (vs_type s, entry).
Proof.
  intros base sets cfg ms H FN SB ID D. destruct (analyze_facts _ _ _ _ H FN) as (ns & n0 & ns' & _ & R & _ & _ & _ & VM).
  destruct (analyze_names _ _ _ _ H) as (ND & DAT). pose proof (results_types _ _ _ _ _ R) as TY.
  change (map (fun m => (md_type m, m)) ms) with (all_media ms) in VM.
  assert (NDA : NoDup (map fst (all_media ms))).
  { unfold all_media. rewrite map_map. cbn. change (NoDup (map md_type ms)). rewrite TY. exact ND. }
  assert (AM : forall ct, assoc ct (vd_media cfg) = if str_in ct ["video"; "audio"] then assoc ct (all_media ms) else None).
  { intros ct. rewrite VM. apply pick_assoc. }
  assert (FM : forall ct m, assoc ct (vd_media cfg) = Some m -> In m ms /\ md_type m = ct).
  { intros ct m A. rewrite AM in A. destruct (str_in ct _); [|discriminate]. apply assoc_in in A. unfold all_media in A.
    apply in_map_iff in A. destruct A as (m' & E & I). injection E as E ->. auto. }
  assert (WR : forall ct m, assoc ct (vd_media cfg) = Some m -> writable m).
  { intros ct m A. destruct (FM _ _ A) as (I & E). destruct (results_in _ _ _ _ _ R _ I) as (s & n & IS & S).
    destruct S as (S1 & S2 & _ & (r1 & rs & l & S3 & _) & _). rewrite Forall_forall in ID. pose proof (ID _ IS) as IDS.
    split; [rewrite S2, S3; discriminate|]. split; [rewrite S2; apply Forall_map; exact IDS|].
    rewrite Forall_forall in DAT. rewrite (DAT _ I), E. rewrite AM in A.
    assert (K : ct = "video" \/ ct = "audio").
    { destruct (str_in ct ["video"; "audio"]) eqn:K; [|discriminate]. apply str_in_iff in K. destruct K as [<-|[<-|[]]]; auto. }
    apply strip_tight. apply tight_app; [apply strip_tight; exact SB|]. destruct K as [->| ->]; split; reflexivity. }
  rewrite (config_back cfg D WR). eexists. split; [reflexivity|]. cbn [v_first v_n v_dur v_tsbd v_media].
  split; [reflexivity|]. split; [reflexivity|]. split; [reflexivity|]. split; [reflexivity|].
  set (md := flat_map _ _).
  assert (MD : md = ((match assoc "video" (all_media ms) with Some m => [("video", media_of m)] | None => [] end)
                    ++ (match assoc "audio" (all_media ms) with Some m => [("audio", media_of m)] | None => [] end))%list).
  { unfold md. cbn [flat_map]. rewrite !AM. cbn [str_in existsb String.eqb Ascii.eqb Bool.eqb orb].
    rewrite ?app_nil_r. reflexivity. }
  clearbody md. split.
  { rewrite MD. destruct (assoc "video" (all_media ms)), (assoc "audio" (all_media ms)); cbn [app map fst]; repeat constructor; cbn; intuition discriminate. }
  assert (IN : forall ct m, In (ct, m) md <-> In ct ["video"; "audio"] /\ exists m0, assoc ct (all_media ms) = Some m0 /\ m = media_of m0).
  { intros ct m. rewrite MD, in_app_iff. split.
    - intros [I|I].
      + destruct (assoc "video" (all_media ms)) as [m0|] eqn:E; [|destruct I]. destruct I as [I|[]]. injection I as <- <-. split; [left; reflexivity|]. exists m0. auto.
      + destruct (assoc "audio" (all_media ms)) as [m0|] eqn:E; [|destruct I]. destruct I as [I|[]]. injection I as <- <-. split; [right; left; reflexivity|]. exists m0. auto.
    - intros ([<-|[<-|[]]] & m0 & E & ->); rewrite E; [left|right]; left; reflexivity. }
  intros k s m S M T. cbn zeta. destruct (results_nth _ _ _ _ _ R _ _ _ S M) as (n & _ & SR).
  assert (IM : In m ms) by (eapply nth_error_In; exact M). assert (IS : In s sets) by (eapply nth_error_In; exact S).
  assert (AS : assoc (vs_type s) (all_media ms) = Some m).
  { apply assoc_found; [exact NDA|]. unfold all_media. apply in_map_iff. exists m. split; [|exact IM]. destruct SR as (-> & _). reflexivity. }
  assert (EN : mkMedia (md_timescale m) (map vr_id (vs_reps s)) (Some (md_total m)) (Some (md_dat m)) = media_of m).
  { destruct SR as (_ & E & _). unfold media_of. rewrite E. reflexivity. }
  rewrite EN. assert (INM : In (vs_type s, media_of m) md) by (apply IN; split; [exact T|exists m; auto]). split; [exact INM|].
  intros r IR U. apply content_found; [exact INM| |].
  - destruct SR as (_ & E & _). unfold media_of. cbn [m_reps]. rewrite E. apply in_map. exact IR.
  - intros k' m' I' R'. apply IN in I'. destruct I' as (T' & m0 & E & ->).
    assert (X : In m0 ms /\ md_type m0 = k').
    { apply assoc_in in E. unfold all_media in E. apply in_map_iff in E. destruct E as (m1 & E & I). injection E as E ->. auto. }
    destruct X as (X1 & X2). destruct (results_in _ _ _ _ _ R _ X1) as (s' & n' & IS' & SR'). destruct SR' as (Y1 & Y2 & _).
    destruct (string_dec k' (vs_type s)) as [->|NE].
    + rewrite AS in E. injection E as <-. reflexivity.
    + exfalso. apply (U s' IS'); [congruence|]. unfold media_of in R'. cbn [m_reps] in R'. rewrite Y2 in R'. exact R'.
Qed.
