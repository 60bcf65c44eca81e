(** Chunking a segment. *)
From Coq Require Import ZifyBool ZifyNat.
From Verif Require Import Base BaseProofs BytesModel BytesProofs BoxSpec Mp4Proofs ChunkModel ChunkSpec ChunkProofs ChunkParse ChunkDecode ChunkWrite.
From Verif Require MediaSpec.
Open Scope Z_scope.

Lemma encode_ok : forall nr track parts, 0 <= nr < 4294967296 -> 0 <= track < 4294967296 ->
  Forall (fun p => p <> [] /\ (exists t, timed p t) /\ Forall (fun s => sample_ok s /\ 0 <= s_time s < 18446744073709551616) p /\
    Z.of_nat (List.length p) < 134000000 /\ 8 + blen (media_of p) < 4294967296) parts ->
  exists chunks, encode_parts nr track parts = Ok chunks /\
    Forall2 (fun c p => forall d, fragment_says d c nr track (map as_media p)) chunks parts.
Proof.
  intros nr track parts N T H. induction H as [|p parts P H IH]; [exists []; split; [reflexivity|constructor]|].
  destruct IH as (chunks & E & F). destruct P as (P1 & (t & P2) & P3 & P4 & P5).
  assert (OKS : Forall sample_ok p) by (eapply Forall_impl; [|exact P3]; cbn beta; tauto).
  assert (TB : 0 <= t < 18446744073709551616).
  { destruct p as [|s p]; [contradiction|]. destruct P2 as (<- & _). inversion P3; subst. tauto. }
  destruct (chunk_bytes nr track t p N T TB P1 P2 OKS P4 P5) as (B1 & B2).
  cbn [encode_parts]. rewrite B1. cbn [bind]. rewrite E. cbn [bind]. eexists. split; [reflexivity|]. constructor; [|exact F].
  intros d. apply chunk_says; assumption.
Qed.

Lemma loop_timed : forall rows a b c m t pos, timed (samples_loop rows a b c m t pos) t.
Proof. intros rows. induction rows as [|r rows IH]; intros; cbn [samples_loop timed]; [exact I|]. split; [reflexivity|]. apply IH. Qed.
Lemma cto_entries : forall d h file l first t pos, Forall (fun m => 0 <= ms_cto m < 2147483648) (entries_samples d h file first l t pos) -> Forall cto_ok l.
Proof.
  intros d h file l. induction l as [|e l IH]; intros first t pos H; constructor; cbn [entries_samples] in H; inversion H as [|? ? H1 H2]; subst.
  - cbn [ms_cto] in H1. unfold cto_ok. destruct (en_cto e); cbn [within either] in *; [lia|exact I].
  - eapply IH. exact H2.
Qed.
Lemma entries_dur : forall d h file l first t pos, (forall e, In e l -> 0 <= entry_dur d h e < 4294967296) -> 0 <= t ->
  Forall (fun m => 0 <= ms_dur m < 4294967296 /\ 0 <= ms_time m) (entries_samples d h file first l t pos).
Proof.
  intros d h file l. induction l as [|e l IH]; intros first t pos H T; constructor.
  - cbn [ms_dur ms_time]. split; [apply H; left; reflexivity|exact T].
  - apply IH; [intros; apply H; right; assumption|]. assert (Q := H e (or_introl eq_refl)). lia.
Qed.
Lemma blen_slice_le : forall a n b, 0 <= n -> 0 <= a -> blen (bslice a (a + n) b) <= n.
Proof.
  intros a n b N A. unfold bslice. replace (a + n - a) with n by lia. rewrite blen_btake by exact N. lia.
Qed.
Lemma entries_media : forall d h file l first t pos, (forall e, In e l -> 0 <= entry_size d h e) -> 0 <= pos ->
  blen (List.concat (map ms_data (entries_samples d h file first l t pos))) <= fold_right (fun e a => entry_size d h e + a) 0 l.
Proof.
  intros d h file l. induction l as [|e l IH]; intros first t pos H P; cbn [entries_samples map List.concat fold_right]; [rewrite blen_nil; lia|].
  assert (Q := H e (or_introl eq_refl)). rewrite blen_app. cbn [ms_data].
  assert (B := blen_slice_le pos (entry_size d h e) file Q P).
  specialize (IH None (t + entry_dur d h e) (pos + entry_size d h e) ltac:(intros; apply H; right; assumption) ltac:(lia)). lia.
Qed.
Lemma either_u32 : forall o z, u32 o -> 0 <= z < 4294967296 -> 0 <= either o z < 4294967296.
Proof. intros [y|] z; cbn; auto. Qed.
Lemma alike_media : forall l m, Forall2 alike l m -> media_of l = List.concat (map ms_data m).
Proof.
  intros l m H. induction H as [|s x l m A H IH]; [reflexivity|]. unfold media_of. cbn [map List.concat]. fold (media_of l). rewrite IH. destruct A as (-> & _). reflexivity.
Qed.
Lemma in_concat_len : forall A (p : list A) parts, In p parts -> (List.length p <= List.length (List.concat parts))%nat.
Proof.
  intros A p parts. induction parts as [|q parts IH]; intros H; [contradiction|]. cbn [List.concat]. rewrite app_length. destruct H as [->|H]; [lia|]. apply IH in H. lia.
Qed.
Lemma in_concat_media : forall p parts, In p parts -> blen (media_of p) <= blen (media_of (List.concat parts)).
Proof.
  intros p parts. induction parts as [|q parts IH]; intros H; [contradiction|]. cbn [List.concat]. unfold media_of. rewrite map_app, concat_app, blen_app.
  fold (media_of p). fold (media_of q). fold (media_of (List.concat parts)).
  assert (Q1 := blen_nonneg (media_of q)). assert (Q2 := blen_nonneg (media_of (List.concat parts))). destruct H as [->|H]; [lia|]. apply IH in H. lia.
Qed.
Lemma in_concat_Forall : forall A (P : A -> Prop) parts, Forall P (List.concat parts) -> Forall (Forall P) parts.
Proof.
  intros A P parts. induction parts as [|q parts IH]; intros H; constructor; cbn [List.concat] in H; apply Forall_app in H; destruct H; auto.
Qed.
Lemma alike_same : forall l m, Forall2 alike l m -> Forall2 same_sample (map as_media l) m.
Proof. intros l m H. induction H as [|s x l m A H IH]; constructor; [exact A|exact IH]. Qed.
Lemma alike_forall : forall (P : media_sample -> Prop) (Q : sample -> Prop) l m, Forall2 alike l m -> (forall s x, alike s x -> P x -> Q s) -> Forall P m -> Forall Q l.
Proof. intros P Q l m H I. induction H as [|s x l m A H IH]; intros F; constructor; inversion F; subst; eauto. Qed.

Lemma F2_length : forall A B (R : A -> B -> Prop) l m, Forall2 R l m -> List.length l = List.length m.
Proof. intros A B R l m H. induction H; cbn [List.length]; congruence. Qed.
Section All.
  Context (f : frag) (d : track_defaults) (file : bytes) (nr track : Z) (ss : list media_sample) (i D : Z).
  Hypothesis (IS : fragment_is f d file nr track ss) (DP : 0 < D).
  Hypothesis (TD : 0 <= td_dur d < 4294967296) (TS : 0 <= td_size d < 4294967296).
  Hypothesis (CT : Forall (fun m => 0 <= ms_cto m < 2147483648) ss) (TI : Forall (fun m => ms_time m < 18446744073709551616) ss).
  Hypothesis (CNT : Z.of_nat (List.length ss) < 134000000) (FS : 8 + blen file < 4294967296).
  Let trex : trex_data := Some (i, td_dur d, td_size d, td_flags d).

  (** The samples as decoded: those of the fragment, and the truth value of their flags. *)
  Lemma decode_ok : exists sl, decode_fragment file trex = Ok sl /\ Forall2 alike sl ss /\
    (exists t, timed sl t) /\ Forall (fun s => sample_ok s /\ 0 <= s_time s < 18446744073709551616) sl /\
    8 + blen (media_of sl) < 4294967296 /\
    Forall (fun s => s_sync s = Z.testbit (rn_flags (f_run f)) 10 || negb (either (th_sflags (f_head f)) (td_flags d) =? 0)) sl.
  Proof.
    destruct IS as (time & FI & OK & N & TR & DT & A0 & L0 & AL & SS).
    assert (OK' := OK). destruct OK' as (_ & _ & _ & _ & HO & RO).
    destruct HO as (_ & _ & _ & _ & _ & HD & HS & _). destruct RO as (_ & _ & _ & _ & _ & _ & _ & EO).
    assert (CE : Forall cto_ok (rn_entries (f_run f))) by (rewrite SS in CT; eapply cto_entries; exact CT).
    assert (T0 : 0 <= time) by (inversion DT; subst; lia).
    assert (SZ : forall e, In e (rn_entries (f_run f)) -> 0 <= entry_size d (f_head f) e < 4294967296).
    { intros e E. rewrite Forall_forall in EO. destruct (EO e E) as (U1 & U2 & _). unfold entry_size. apply either_u32; [exact U2|]. apply either_u32; assumption. }
    assert (DU : forall e, In e (rn_entries (f_run f)) -> 0 <= entry_dur d (f_head f) e < 4294967296).
    { intros e E. rewrite Forall_forall in EO. destruct (EO e E) as (U1 & U2 & _). unfold entry_dur. apply either_u32; [exact U1|]. apply either_u32; assumption. }
    assert (Dd := decode_frag f time d i OK CE DT A0). fold trex in Dd. rewrite <- FI in Dd.
    set (sl := samples_loop _ _ _ _ _ _ _) in Dd.
    assert (AA : Forall2 alike sl ss).
    { rewrite SS. unfold frag_samples. rewrite <- FI. rewrite <- (Z.add_0_r (media_at f)). apply loop_alike; [exact A0|lia|]. intros e E. apply SZ in E. lia. }
    exists sl. split; [exact Dd|]. split; [exact AA|]. split; [exists time; apply loop_timed|].
    assert (EM : blen (media_of sl) <= blen file).
    { rewrite (alike_media _ _ AA), SS. unfold frag_samples. etransitivity; [apply entries_media|]; [intros e E; apply SZ in E; lia|exact A0|]. fold (media_len d f). lia. }
    split; [|split; [lia|]].
    - assert (G := entries_dur d (f_head f) file (rn_entries (f_run f)) (rn_first (f_run f)) time (media_at f) DU T0).
      rewrite FI in G. fold (frag_samples d f time) in G. rewrite <- SS in G.
      assert (BD : Forall (fun s => blen (s_data s) <= blen file) sl).
      { assert (EM' := EM). clear - EM'. revert EM'. generalize (blen file). intros B.
        assert (K : forall l, blen (media_of l) <= B -> Forall (fun s => blen (s_data s) <= B) l); [|apply K].
        induction l as [|s l IH]; intros H; constructor; unfold media_of in H; cbn [map List.concat] in H; rewrite blen_app in H; fold (media_of l) in H;
        assert (Q1 := blen_nonneg (s_data s)); assert (Q2 := blen_nonneg (media_of l)); [lia|apply IH; lia]. }
      assert (A2 : Forall (fun s => (0 <= s_dur s < 4294967296 /\ 0 <= s_time s) /\ 0 <= s_cto s < 2147483648 /\ s_time s < 18446744073709551616) sl).
      { eapply alike_forall with (P := fun m => (0 <= ms_dur m < 4294967296 /\ 0 <= ms_time m) /\ 0 <= ms_cto m < 2147483648 /\ ms_time m < 18446744073709551616); [exact AA| |].
        - intros s x (_ & -> & -> & ->) H. exact H.
        - rewrite Forall_forall in *. intros x X. auto. }
      rewrite Forall_forall in *. intros s S. specialize (BD s S). specialize (A2 s S). unfold sample_ok. lia.
    - unfold sl. assert (EF : Forall (fun e => Z.testbit (rn_flags (f_run f)) 10 = has (en_flags e)) (rn_entries (f_run f))).
      { eapply Forall_impl; [|exact EO]. cbn beta. intros e (_ & _ & _ & _ & _ & _ & E & _). exact E. }
      clear - EF. revert time. generalize 0 at 2 as pos. intros pos. revert pos. induction EF as [|e l E EF IH]; intros pos time; cbn [map samples_loop]; constructor; [|apply IH].
      cbn [s_sync row_of e_flags]. rewrite E. destruct (en_flags e); reflexivity.
  Qed.
  Lemma all_ok : exists chunks sparts parts, chunk_segment file D trex = Ok chunks /\
    chunking ms_dur D ss parts /\ Forall2 (Forall2 alike) sparts parts /\
    Forall2 (fun c p => forall d', fragment_says d' c nr track (map as_media p)) chunks sparts /\
    Forall (Forall (fun s => s_sync s = Z.testbit (rn_flags (f_run f)) 10 || negb (either (th_sflags (f_head f)) (td_flags d) =? 0))) sparts.
  Proof.
    destruct decode_ok as (sl & Dd & AA & (t & TM) & OKS & SZ & SY).
    destruct IS as (time & FI & OK & N & TR & DT & A0 & L0 & AL & SS).
    assert (CE : Forall cto_ok (rn_entries (f_run f))) by (rewrite SS in CT; eapply cto_entries; exact CT).
    assert (P := partition_chunking sl D DP).
    assert (EN : 0 <= nr < 4294967296) by (rewrite <- N; apply OK).
    assert (ET : 0 <= track < 4294967296) by (rewrite <- TR; apply OK).
    assert (PC : List.concat (partition sl D) = sl) by apply P.
    destruct (encode_ok nr track (partition sl D) EN ET) as (chunks & EC & FC).
    { assert (P1 := ck_some _ _ _ _ P). assert (P2 := timed_parts (partition sl D) t ltac:(rewrite PC; exact TM)).
      assert (P3 := in_concat_Forall _ _ (partition sl D) ltac:(rewrite PC; exact OKS)).
      assert (LL : List.length sl = List.length ss) by (eapply F2_length; exact AA).
      rewrite Forall_forall in P1, P2, P3 |- *. intros p IN. split; [apply P1; exact IN|]. split; [apply P2; exact IN|]. split; [apply P3; exact IN|].
      assert (L1 := in_concat_len _ _ _ IN). assert (L2 := in_concat_media _ _ IN). rewrite PC in L1, L2. split; lia. }
    exists chunks, (partition sl D), (gloop ms_dur ss D 0 D []). split.
    - unfold chunk_segment. rewrite FI. rewrite (parse_frag f OK CE time DT). cbn [bind]. unfold find2, find3. rewrite find_moof by exact OK.
      cbn [flat_map p_kids]. rewrite !app_nil_r. rewrite find_mfhd, find_traf by exact OK. cbn [flat_map p_kids]. rewrite !app_nil_r.
      rewrite (find_leaf f OK "tfhd" (tfhd_leaf f) (tfhd_pos f)) by (cbn; tauto).
      cbn [first_box bind im_of p_offset]. rewrite (read_nr f OK), (read_track f OK). cbn [bind]. rewrite <- FI, Dd. cbn [bind]. rewrite N, TR. exact EC.
    - split; [apply gloop_chunking; exact DP|]. split; [|split; [exact FC|apply in_concat_Forall; rewrite PC; exact SY]].
      unfold partition. rewrite partition_gloop. apply loop_rel; [|exact AA|constructor]. intros s m (_ & _ & E & _). exact E.
  Qed.
End All.
