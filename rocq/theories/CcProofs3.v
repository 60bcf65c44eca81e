(** The segment with captions, and reading its samples. *)
From Coq Require Import ZifyBool ZifyNat.
From Verif Require Import Base BaseProofs BytesModel BytesProofs BoxSpec Mp4Model Mp4Proofs ChunkModel ChunkSpec CcModel CcSpec CcProofs CcProofs2.
Open Scope Z_scope.

Lemma bsplit : forall a z b, 0 <= a <= z -> z <= blen b -> btake a b ++ bslice a z b ++ bdrop z b = b.
Proof.
  intros a z b A Z1. unfold bslice. rewrite <- (btake_drop a b) at 4. f_equal.
  rewrite <- (btake_drop (z - a) (bdrop a b)) at 2. f_equal. rewrite bdrop_bdrop by lia. f_equal. lia.
Qed.
Definition sizes (d : track_defaults) (h : head) (es : list entry) : Z := fold_right (fun e a => entry_size d h e + a) 0 es.

(** Where the data of the samples is in the file. *)
Lemma samples_in : forall d h file es first t pos,
  Forall (fun e => exists v, en_dur e = Some v) es -> Forall (fun e => exists v, en_size e = Some v /\ 0 <= v) es ->
  0 <= pos -> pos + sizes d h es <= blen file ->
  let l := entries_samples d h file first es t pos in
  0 <= sizes d h es /\
  bslice pos (pos + sizes d h es) file = List.concat (map ms_data l) /\
  Forall2 row_of es l /\ consecutive t l.
Proof.
  intros d h file es. induction es as [|e es IH]; intros first t pos HD HS P B; cbn [entries_samples map List.concat sizes fold_right consecutive].
  - replace (pos + 0) with pos by lia. unfold bslice, btake. rewrite Z.sub_diag. repeat split; auto; try lia; constructor.
  - cbn [sizes fold_right] in B. fold (sizes d h es) in *. inversion HD as [|? ? (du & ED) HD']; subst. inversion HS as [|? ? (sz & ES & NS) HS']; subst.
    assert (S1 : entry_size d h e = sz) by (unfold entry_size; rewrite ES; reflexivity).
    assert (D1 : entry_dur d h e = du) by (unfold entry_dur; rewrite ED; reflexivity).
    rewrite S1, D1 in *. cbn [ms_data ms_time ms_dur].
    destruct (IH None (t + du) (pos + sz) HD' HS' ltac:(lia) ltac:(lia)) as (N & E & F & C).
    split; [lia|]. split; [|split].
    + rewrite <- E. unfold bslice. replace (bdrop (pos + sz) file) with (bdrop sz (bdrop pos file)) by (rewrite bdrop_bdrop by lia; reflexivity).
      rewrite <- (btake_drop sz (bdrop pos file)) at 1.
      assert (L1 : blen (btake sz (bdrop pos file)) = sz) by (rewrite blen_btake, blen_bdrop by lia; lia).
      rewrite btake_app_r by lia. rewrite L1. replace (pos + sz - pos) with sz by lia. do 2 f_equal. lia.
    + constructor; [|exact F]. split; cbn [ms_dur ms_data]; [exact ED|]. rewrite ES. f_equal. rewrite blen_bslice by lia. lia.
    + split; [reflexivity|exact C].
Qed.
Lemma samples_new : forall d h file es first t pos es1 ss A B,
  Forall2 (fun e e1 => entry_dur d h e1 = entry_dur d h e /\ en_flags e1 = en_flags e /\ en_cto e1 = en_cto e) es es1 ->
  Forall2 (fun e1 s => entry_size d h e1 = blen s) es1 ss ->
  let l := entries_samples d h file first es t pos in
  let l1 := entries_samples d h (A ++ List.concat ss ++ B) first es1 t (blen A) in
  map ms_data l1 = ss /\
  Forall2 (fun m m1 => ms_time m1 = ms_time m /\ ms_dur m1 = ms_dur m /\ ms_flags m1 = ms_flags m /\ ms_cto m1 = ms_cto m) l l1.
Proof.
  intros d h file es first t pos es1 ss A B HE. revert first t pos ss A.
  induction HE as [|e e1 es es1 (ED & EF & EC) HE IH]; intros first t pos ss A HS; inversion HS as [|? s ? ss' S1 HS']; subst.
  - split; [reflexivity|constructor].
  - cbn [entries_samples map List.concat ms_data].
    destruct (IH None (t + entry_dur d h e) (pos + entry_size d h e) ss' (A ++ s) HS') as (E & F).
    rewrite ED, S1. rewrite blen_app in E, F.
    assert (X : (A ++ s) ++ List.concat ss' ++ B = A ++ (s ++ List.concat ss') ++ B) by (rewrite <- !app_assoc; reflexivity).
    rewrite X in E, F. split.
    + f_equal; [|exact E]. rewrite <- app_assoc. apply bslice_mid. reflexivity.
    + constructor; [|exact F]. cbn. unfold entry_flags. rewrite EF, EC. auto.
Qed.

Section Seg.
  Variables (caps : list cc) (ts time field : Z).
  Hypothesis Hfield : field = 1 \/ field = 2.
  Hypothesis Hts : ts <> 0.
  Hypothesis Hcaps : Forall (fun c => (List.length (snd c) <= 31)%nat) caps.
  Notation cls := (cc_class caps ts time field).
  Definition heads : list bytes := [bstr "moof"; bstr "traf"; bstr "trun"; bstr "mdat"].

  Lemma leaf_same : forall t p fp st f, ~ In t heads -> utf8_ok t = true ->
    filter_box cls (Datatypes.S f) t (enc (Leaf t p)) fp st = Ok (enc (Leaf t p), st).
  Proof.
    intros t p fp st f N U. unfold heads in N.
    assert (X : forall x, In x heads -> bytes_eqb t x = false).
    { intros x I. apply bytes_eqb_neq. intros ->. apply N. exact I. }
    rewrite filter_leaf. 2:{ cbn. intros [H|[H|[]]]; apply N; cbn; auto. }
    unfold process_leaf. rewrite U. cbn [fc_method fc_note cc_class]. unfold c_method, c_note.
    rewrite !X by (cbn; auto). reflexivity.
  Qed.
  Lemma leaves_same : forall l fp st f, Forall (fun b => exists t p, b = Leaf t p /\ ~ In t heads /\ utf8_ok t = true) l ->
    ran (filter_box cls (Datatypes.S f)) l fp st (encs l) st.
  Proof.
    intros l fp st f H. apply ran_same. intros b fp' I. rewrite Forall_forall in H. destruct (H b I) as (t & p & -> & N & U).
    apply leaf_same; auto.
  Qed.
  Lemma tops_same : forall l fp st, Forall (fun b => exists t p, b = Leaf t p /\ ~ In t heads /\ utf8_ok t = true) l ->
    tran cls l fp st (encs l) st.
  Proof.
    intros l fp st H. apply tran_same. intros b f fp' I L. rewrite Forall_forall in H. destruct (H b I) as (t & p & -> & N & U).
    unfold top_fun. destruct (bytes_in _ _); [|reflexivity]. destruct f; [lia|]. apply leaf_same; auto.
  Qed.

  (** ** The track run *)
  Definition with_run (r : run) (es : list entry) : run := mk_run (rn_version r) (rn_flags r) (rn_offset r) (rn_first r) es.
  Lemma land24 : forall v f, 0 <= f < 16777216 -> Z.land (v * 16777216 + f) 16777215 = f.
  Proof.
    intros v f F. change 16777215 with (Z.ones 24). rewrite Z.land_ones by lia. change (2 ^ 24) with 16777216.
    rewrite Z.add_comm, Z.mod_add by lia. apply Z.mod_small. auto.
  Qed.
  Lemma new_len : forall es l, Forall2 row_of es l -> List.length (new_entries caps ts field es l) = List.length es.
  Proof. induction 1; cbn [new_entries List.length]; congruence. Qed.
  Lemma trun_ok : forall r l st off, run_ok r -> rn_offset r = Some off -> 0 <= off -> rn_first r = None ->
    Forall2 row_of (rn_entries r) l -> consecutive time l ->
    Forall (fun m => blen (ms_data m) + blen (cbytes caps ts field m) < 4294967296) l ->
    8 + blen (run_payload r) < 4294967296 ->
    let r1 := with_run r (new_entries caps ts field (rn_entries r) l) in
    blen (run_payload r1) = blen (run_payload r) /\
    c_trun caps ts time field (enc (Leaf (bstr "trun") (run_payload r))) st =
      Ok (enc (Leaf (bstr "trun") (run_payload r1)), mk_cstate off (cs_map st ++ new_map caps ts field l 0) (cs_moof st) (cs_mdat st)).
  Proof.
    intros r l st off (V & FL & OR & _ & T0 & T2 & LN & EOK) EO PO EF R C B SZ r1.
    assert (EL : blen (run_payload r1) = blen (run_payload r)).
    { unfold run_payload, r1, with_run. cbn [rn_version rn_flags rn_entries rn_offset rn_first]. rewrite !blen_app, !blen_be32.
      do 4 f_equal. clear -R. induction R as [|e m es l [D S] R IH]; [reflexivity|]. cbn [new_entries map List.concat]. rewrite !blen_app, IH.
      f_equal. unfold entry_payload, new_entry. cbn [en_dur en_size en_flags en_cto]. rewrite !blen_app, S. reflexivity. }
    split; [exact EL|].
    set (es := rn_entries r) in *. set (n := Z.of_nat (List.length es)) in *.
    set (w := rn_version r * 16777216 + rn_flags r).
    assert (W : 0 <= w < 4294967296) by (unfold w; lia).
    assert (LW : Z.land w 16777215 = rn_flags r) by (apply land24; exact FL).
    rewrite EO in T0, OR. rewrite EF in T2. cbn [has] in T0, T2. cbn [within] in OR.
    set (hd := be32 (8 + blen (run_payload r)) ++ bstr "trun").
    set (rows := List.concat (map entry_payload es)).
    assert (ED : enc (Leaf (bstr "trun") (run_payload r)) = hd ++ be32 w ++ be32 n ++ be32 off ++ rows).
    { cbn [enc]. unfold hd, run_payload. fold es. fold n. fold w. rewrite EO, EF. cbn [opt_s32 opt32 app].
      rewrite Z.mod_small by lia. rewrite <- !app_assoc. reflexivity. }
    assert (LH : blen hd = 8) by reflexivity.
    rewrite ED. unfold c_trun.
    replace 8 with (blen hd) at 1. rewrite u32_mid by apply blen_be32. cbn [bind].
    rewrite be32_val by exact W. rewrite LW.
    replace 12 with (blen (hd ++ be32 w)) by (rewrite blen_app, LH, blen_be32; reflexivity).
    rewrite (app_assoc hd (be32 w)). rewrite u32_mid by apply blen_be32. cbn [bind]. rewrite be32_val by (unfold n in *; lia).
    rewrite T0. replace 16 with (blen ((hd ++ be32 w) ++ be32 n)) at 1 by (rewrite !blen_app, LH, !blen_be32; reflexivity).
    rewrite (app_assoc (hd ++ be32 w) (be32 n)). rewrite u32_mid by apply blen_be32. cbn [bind]. rewrite be32_val by lia.
    rewrite p32_ok by lia. cbn [bind]. rewrite T2.
    replace 20 with (blen (((hd ++ be32 w) ++ be32 n) ++ be32 off)) by (rewrite !blen_app, LH, !blen_be32; reflexivity).
    rewrite (app_assoc ((hd ++ be32 w) ++ be32 n) (be32 off)).
    assert (S0 := samples_ok caps ts field (rn_flags r) (rn_version r) es l (((hd ++ be32 w) ++ be32 n) ++ be32 off) [] time 0
      Hfield Hts Hcaps R EOK C B). rewrite app_nil_r in S0. unfold n. rewrite Nat2Z.id. fold rows in S0. fold n.
    rewrite S0. cbn [bind]. f_equal. f_equal.
    cbn [enc]. rewrite EL. unfold run_payload at 2. unfold r1, with_run. cbn [rn_version rn_flags rn_entries rn_offset rn_first].
    rewrite (new_len _ _ R). fold n. fold w. rewrite EO, EF. cbn [opt_s32 opt32 app]. rewrite Z.mod_small by lia.
    rewrite <- !app_assoc. rewrite be32_eq. rewrite (app_assoc hd (be32 w)), (app_assoc (hd ++ be32 w) (be32 n)).
    assert (L16 : blen ((hd ++ be32 w) ++ be32 n) = 16) by (rewrite !blen_app, LH, !blen_be32; reflexivity).
    rewrite btake_app_l by lia. rewrite btake_all by lia. unfold hd. rewrite <- !app_assoc. reflexivity.
  Qed.

  (** ** The media data box *)
  Lemma map_total : forall l a pos, fold_left (fun a e => a + blen (snd e)) (new_map caps ts field l pos) a =
    a + fold_right (fun m x => blen (cbytes caps ts field m) + x) 0 l.
  Proof.
    induction l as [|m r IH]; intros a pos; cbn [new_map fold_right fold_left]; [lia|]. rewrite fold_left_app, IH.
    assert (E : captions_of ts caps m = [] -> blen (cbytes caps ts field m) = 0) by (unfold cbytes; intros ->; reflexivity).
    destruct (captions_of ts caps m); cbn [fold_left snd]; [rewrite E by reflexivity|]; lia.
  Qed.
  Lemma mdat_ok : forall l x y moof_start mdat_start off, Forall (fun m => video_sample (ms_data m)) l ->
    let payload := x ++ List.concat (map ms_data l) ++ y in
    off - (mdat_start - moof_start) = 8 + blen x ->
    8 + blen payload + fold_right (fun m x => blen (cbytes caps ts field m) + x) 0 l < 4294967296 ->
    exists ss, Forall2 (fun m s => with_captions field (captions_of ts caps m) (ms_data m) s /\ blen s = blen (ms_data m) + blen (cbytes caps ts field m)) l ss /\
      let st := mk_cstate off (new_map caps ts field l 0) (Some moof_start) (Some mdat_start) in
      c_mdat (enc (Leaf (bstr "mdat") payload)) st = Ok (enc (Leaf (bstr "mdat") (x ++ List.concat ss ++ y)), st).
  Proof.
    intros l x y moof_start mdat_start off V payload O SZ.
    destruct (mdat_loop_ok caps ts field l V) as (ss & F & H). exists ss. split; [exact F|]. cbv zeta.
    unfold c_mdat. cbn [cs_mdat cs_moof cs_offset cs_map]. rewrite O.
    assert (LP : blen (enc (Leaf (bstr "mdat") payload)) = 8 + blen payload) by (rewrite blen_enc by reflexivity; reflexivity).
    rewrite map_total, LP.
    assert (NP := blen_nonneg payload). assert (NX := blen_nonneg x).
    assert (TOT : blen (x ++ List.concat ss ++ y) = blen payload + fold_right (fun m x => blen (cbytes caps ts field m) + x) 0 l).
    { unfold payload. rewrite !blen_app. clear -F. 
      assert (E : blen (List.concat ss) = blen (List.concat (map ms_data l)) + fold_right (fun m x => blen (cbytes caps ts field m) + x) 0 l).
      { induction F as [|m s l ss [_ E] F IH]; [reflexivity|]. cbn [map List.concat fold_right]. rewrite !blen_app, E, IH. lia. }
      lia. }
    assert (NT := blen_nonneg (x ++ List.concat ss ++ y)).
    rewrite p32_ok by lia. cbn [bind].
    set (hd := be32 (8 + blen payload)).
    assert (ED : enc (Leaf (bstr "mdat") payload) = hd ++ (bstr "mdat" ++ x) ++ List.concat (map ms_data l) ++ y).
    { cbn [enc]. unfold hd, payload. rewrite <- !app_assoc. reflexivity. }
    rewrite ED. rewrite (py_slice_mid hd (bstr "mdat" ++ x)); [|reflexivity|].
    2:{ rewrite blen_app. change (blen hd) with 4. change (blen (bstr "mdat")) with 4. lia. }
    rewrite (app_assoc hd).
    assert (LL : 8 + blen x = blen (hd ++ bstr "mdat" ++ x)).
    { rewrite !blen_app. change (blen hd) with 4. change (blen (bstr "mdat")) with 4. lia. }
    assert (H1 := H (hd ++ bstr "mdat" ++ x) [] y (8 + blen x) 0 (be_bytes 4 (8 + blen payload + fold_right (fun m x => blen (cbytes caps ts field m) + x) 0 l) ++ bstr "mdat" ++ x)).
    rewrite <- LL in H1. cbn [app] in H1. change (blen []) with 0 in H1.
    rewrite H1 by lia. cbn [bind]. f_equal. f_equal. cbn [enc]. rewrite TOT, be32_eq, Z.add_assoc, <- !app_assoc. reflexivity.
  Qed.
End Seg.
