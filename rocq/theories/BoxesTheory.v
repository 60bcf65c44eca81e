(** C77. *)
From Verif Require Import Base BaseProofs BytesModel BytesProofs BoxSpec ChunkModel LangModel LangTheory BoxesModel BoxesSpec BoxesProofs.
From Coq Require Import Lia ZArith List.
Import ListNotations.
Open Scope Z_scope.

Lemma C77_complete_partial_pf : forall b out, proper b -> serialize b = Ok out ->
  blen out = size b /\ (blen out < 4294967296 -> complete out).
Proof. intros b out Hp H. destruct (all_good b Hp out H) as (L & C). split; [exact L|]. rewrite L. exact C. Qed.

Ltac in_parents := split; [reflexivity|unfold is_parent; cbn; tauto].
Lemma minf_proper : forall stsd mh, proper stsd -> proper mh -> proper (create_minf_box stsd mh).
Proof. intros stsd mh H1 H2. cbn [create_minf_box proper]. repeat (split; [first [in_parents|assumption|exact I]|]). 
  repeat split; try assumption; try exact I; try reflexivity; unfold is_parent; cbn; tauto. Qed.
Lemma mdia_proper : forall mt h ts du la stsd mh, blen mt = 4 -> proper stsd -> proper mh -> proper (create_box_mdia mt h ts du la stsd mh).
Proof.
  intros mt h ts du la stsd mh Hm H1 H2. unfold create_box_mdia. pose proof (minf_proper stsd mh H1 H2) as H.
  cbn [proper]. split; [in_parents|]. split; [exact I|]. split; [exact Hm|]. split; [exact H|exact I].
Qed.
Lemma moov_proper : forall m r b, create_moov m r = Ok b -> (forall l, r = Ok l -> Forall proper l) -> proper b.
Proof.
  intros m r b H Hr. unfold create_moov in H. apply bind_ok in H. destruct H as (d & _ & H). apply bind_ok in H. destruct H as (l & E & H).
  inversion H; subst b. cbn [proper]. split; [in_parents|]. split; [exact I|]. apply proper_all. exact (Hr _ E).
Qed.
Lemma mvex_proper : forall t, proper (mvex t).
Proof. intros t. unfold mvex. cbn [proper]. split; [in_parents|]. split; exact I. Qed.
Lemma visual_proper : forall e m v b, type_for 78 e -> proper (vi_config v) -> create_box_trak_visual e m v = Ok b -> proper b.
Proof.
  intros e m v b He Hc H. unfold create_box_trak_visual in H. apply bind_ok in H. destruct H as (d & _ & H). inversion H; subst b.
  cbn [proper]. split; [in_parents|]. split; [exact I|]. split; [|exact I]. apply mdia_proper; [reflexivity| |exact I].
  unfold create_stsd_visual. cbn [proper]. split; [split; assumption|exact I].
Qed.
Lemma audio_proper : forall e m a b, type_for 28 e -> complete (ai_specific a) -> create_box_trak_audio e m a = Ok b -> proper b.
Proof.
  intros e m a b He Hc H. unfold create_box_trak_audio in H. apply bind_ok in H. destruct H as (d & _ & H). inversion H; subst b.
  cbn [proper]. split; [in_parents|]. split; [exact I|]. split; [|exact I]. apply mdia_proper; [reflexivity| |exact I].
  unfold create_stsd_audio. cbn [proper]. split; [split; assumption|exact I].
Qed.
Lemma text_proper : forall m la b, create_box_trak_mp4s m la = Ok b -> proper b.
Proof.
  intros m la b H. unfold create_box_trak_mp4s in H. apply bind_ok in H. destruct H as (d & _ & H). inversion H; subst b.
  cbn [proper]. split; [in_parents|]. split; [exact I|]. split; [|exact I]. apply mdia_proper; [reflexivity| |exact I].
  split; exact I.
Qed.
Lemma init_proper : forall b, init_box b -> proper b.
Proof.
  intros b H. destruct H as [| |m w h pr co le sps pps b H|m w h vps sps pps b H|m a b Hc H|codec m a b Hc H|m la b H].
  - exact I.
  - exact I.
  - apply (moov_proper _ _ _ H). intros l E. apply bind_ok in E. destruct E as (t & E & X). inversion X; subst l.
    constructor; [|constructor; [apply mvex_proper|constructor]]. eapply visual_proper; [| |exact E]; [in_parents|exact I].
  - apply (moov_proper _ _ _ H). intros l E. apply bind_ok in E. destruct E as (t & E & X). inversion X; subst l.
    constructor; [|constructor; [apply mvex_proper|constructor]]. eapply visual_proper; [| |exact E]; [in_parents|exact I].
  - apply (moov_proper _ _ _ H). intros l E. apply bind_ok in E. destruct E as (t & E & X). inversion X; subst l.
    constructor; [apply mvex_proper|constructor; [|constructor]]. eapply audio_proper; [|exact Hc|exact E]. in_parents.
  - apply (moov_proper _ _ _ H). intros l E. apply bind_ok in E. destruct E as (ty & Et & E). apply bind_ok in E. destruct E as (t & E & X). inversion X; subst l.
    constructor; [apply mvex_proper|constructor; [|constructor]]. eapply audio_proper; [|exact Hc|exact E].
    unfold ac3_type in Et. destruct (String.eqb codec "ac-3"); [inversion Et; in_parents|].
    destruct (String.eqb codec "ec-3" || String.eqb codec "ec+3"); inversion Et; in_parents.
  - apply (moov_proper _ _ _ H). intros l E. apply bind_ok in E. destruct E as (t & E & X). inversion X; subst l.
    constructor; [apply mvex_proper|constructor; [|constructor]]. eapply text_proper. exact E.
Qed.

Lemma C77_init_partial_pf : forall b out, init_box b -> serialize b = Ok out ->
  blen out = size b /\ (blen out < 4294967296 -> complete out).
Proof. intros b out H. apply C77_complete_partial_pf. apply init_proper. exact H. Qed.

Lemma moof_proper : forall nr track l aux b, aux_ok aux -> moof_box nr track l aux = Ok b -> proper b.
Proof.
  intros nr track l aux b Ha H. unfold moof_box in H. destruct l as [|s0 l]; [discriminate|]. cbn [bind] in H.
  inversion H; subst b. destruct aux as [x|]; cbn [app proper]; (split; [in_parents|]); (split; [exact I|]); (split; [|exact I]);
    (split; [in_parents|]); repeat (split; [exact I|]); [|exact I]. split; [split; [reflexivity|exact Ha]|]. split; exact I.
Qed.
Lemma mdat_bytes : forall l, serialize (mdat_box l) = Ok (create_mdat l).
Proof.
  intros l. unfold mdat_box. cbn [serialize size app]. unfold create_mdat, raw, u32, fourcc. cbn [join_bytes bind].
  assert (E : join_bytes (map raw (map s_data l)) = Ok (List.concat (map s_data l))).
  { induction l as [|s l IH]; [reflexivity|]. cbn [map join_bytes bind raw List.concat]. change (raw (s_data s)) with (Ok (s_data s)). cbn [bind]. rewrite IH. reflexivity. }
  unfold raw in E. rewrite E. cbn [bind]. f_equal. f_equal. f_equal. f_equal.
  clear E. induction l as [|s l IH]; [reflexivity|]. cbn [map List.concat zsum fold_right]. rewrite blen_app. unfold zsum in IH. lia.
Qed.
Lemma offsets_eq : forall l, has_offsets (map run_of l) = use_comp_off l.
Proof. induction l as [|s l IH]; [reflexivity|]. unfold has_offsets, use_comp_off in *. cbn [map existsb]. rewrite IH. reflexivity. Qed.
Lemma runs_eq : forall c l, join_bytes (flat_map (run_fields c) (map run_of l)) = Ok (List.concat (map (trun_row c) l)).
Proof.
  intros c l. induction l as [|s l IH]; [reflexivity|]. cbn [map flat_map List.concat]. unfold run_fields at 1. unfold trun_row at 1.
  destruct c; cbn [app join_bytes bind u32 run_of rs_duration rs_size rs_sync rs_offset]; unfold u32; cbn [bind]; rewrite IH; cbn [bind];
    rewrite <- ?app_assoc; rewrite ?app_nil_r; reflexivity.
Qed.
Lemma trun_eq : forall l o, serialize (W_trun (map run_of l) o) = Ok (trun_bytes l o).
Proof.
  intros l o. cbn [serialize size app]. rewrite offsets_eq. unfold trun_bytes, trun_size.
  unfold u32, fourcc at 1. cbn [join_bytes bind]. rewrite runs_eq. cbn [bind]. unfold llen. rewrite !map_length. reflexivity.
Qed.
Lemma trun_size_eq : forall l o, size (W_trun (map run_of l) o) = trun_size l.
Proof. intros l o. cbn [size]. rewrite offsets_eq. unfold trun_size, llen. rewrite map_length. reflexivity. Qed.

(** The chunker writes these boxes. *)
Lemma C77_chunks_pf : forall nr track l, (let* b := moof_box nr track l None in serialize b) = create_moof nr track l /\
  serialize (mdat_box l) = Ok (create_mdat l).
Proof.
  intros nr track l. split; [|apply mdat_bytes]. unfold moof_box, create_moof. destruct l as [|s0 l]; [reflexivity|]. cbn [bind].
  remember (s0 :: l) as k. unfold tfdt_bytes. cbn [app].
  assert (S : forall o, size (W_container (bstr "moof") [W_mfhd nr; W_container (bstr "traf") [W_tfhd track; W_tfdt (s_time s0); W_trun (map run_of k) o]]) = 8 + 16 + (8 + 16 + 20 + trun_size k)).
  { intros o. pose proof (trun_size_eq k o) as E. cbn [size] in E |- *. rewrite E. lia. }
  rewrite S. remember (8 + 16 + (8 + 16 + 20 + trun_size k) + 8) as off.
  pose proof (trun_eq k off) as T. pose proof (trun_size_eq k off) as Ts. pose proof (S off) as S'.
  remember (W_trun (map run_of k) off) as tr. cbn [serialize size app] in S' |- *. rewrite T, Ts in *. rewrite S'.
  unfold u64, u32, fourcc. cbn [join_bytes bind]. destruct (uint64_to_str (s_time s0)) as [t|e]; [|reflexivity]. cbn [bind].
  rewrite !app_nil_r. unfold mfhd_bytes, tfhd_bytes. rewrite <- !app_assoc. 
  replace (8 + (16 + (20 + (trun_size k + 0)))) with (8 + 16 + 20 + trun_size k) by lia. reflexivity.
Qed.

Lemma container_inv : forall t l out, serialize (W_container t l) = Ok out ->
  exists k, join_bytes (map serialize l) = Ok k /\ out = serialize_u32 (size (W_container t l)) ++ serialize_name t ++ k.
Proof.
  intros t l out H. cbn [serialize] in H. rewrite writes_eq in H. apply join_cons in H. destruct H as (x & y & E1 & H & ->).
  apply join_cons in H. destruct H as (x' & y' & E2 & H & ->). apply join_cons in H. destruct H as (k & z & E3 & E4 & ->).
  inversion E1; inversion E2; inversion E4; subst. exists k. split; [exact E3|]. rewrite app_nil_r. reflexivity.
Qed.
Lemma moof_ends : forall nr track l aux b out, moof_box nr track l aux = Ok b -> serialize b = Ok out ->
  exists pre, out = pre ++ trun_bytes l (size b + 8).
Proof.
  intros nr track l aux b out Hb H. unfold moof_box in Hb. destruct l as [|s0 l]; [discriminate|]. cbn [bind] in Hb.
  remember (s0 :: l) as k. remember (match aux with None => _ | Some _ => _ end) as boxes.
  assert (Sz : forall o o', size (W_container (bstr "moof") [W_mfhd nr; W_container (bstr "traf") (boxes ++ [W_trun (map run_of k) o])]) =
               size (W_container (bstr "moof") [W_mfhd nr; W_container (bstr "traf") (boxes ++ [W_trun (map run_of k) o'])])).
  { intros o o'. cbn [size]. rewrite !sizes_eq, !map_app. reflexivity. }
  inversion Hb as [Eb]. rewrite Eb. rewrite <- Eb in H |- *.
  apply container_inv in H. destruct H as (x & E & ->). cbn [map] in E. apply join_cons in E. destruct E as (a & c & E1 & E2 & ->).
  apply join_cons in E2. destruct E2 as (d & e & E2 & E3 & ->). inversion E3; subst e. rewrite app_nil_r.
  apply container_inv in E2. destruct E2 as (y & E2 & ->). rewrite map_app in E2. apply join_app in E2. destruct E2 as (p & q & Ep & Eq & ->).
  cbn [map] in Eq. apply join_cons in Eq. destruct Eq as (r & z & Er & Ez & ->). inversion Ez; subst z. rewrite app_nil_r.
  rewrite trun_eq in Er. inversion Er; subst r.
  eexists. rewrite (Sz _ 0). rewrite !app_assoc. reflexivity.
Qed.

(** The run says where the media data are. *)
Lemma C77_media_data_pf : forall nr track l aux b out, aux_ok aux -> moof_box nr track l aux = Ok b -> serialize b = Ok out ->
  blen out + 8 < 4294967296 ->
  exists pre run mdat, out = pre ++ run /\ bslice 4 8 run = bstr "trun" /\ serialize (mdat_box l) = Ok mdat /\
    (blen mdat < 4294967296 -> complete (out ++ mdat)) /\
    bdrop (be_val (bslice 16 20 run)) (out ++ mdat) = List.concat (map s_data l).
Proof.
  intros nr track l aux b out Ha Hb H Hs. destruct (moof_ends _ _ _ _ _ _ Hb H) as (pre & E).
  destruct (C77_complete_partial_pf b out (moof_proper _ _ _ _ _ Ha Hb) H) as (L & C).
  exists pre, (trun_bytes l (size b + 8)), (create_mdat l).
  split; [exact E|]. split; [|split; [apply mdat_bytes|split]].
  - unfold trun_bytes. rewrite bslice_app_r by (rewrite s32_len; lia). rewrite s32_len. change (4 - 4) with 0. change (8 - 4) with 4.
    rewrite bslice_0. rewrite btake_app_l by (vm_compute; discriminate). reflexivity.
  - intros Hm. apply complete_app; [apply C; lia|].
    destruct (C77_complete_partial_pf (mdat_box l) (create_mdat l) I (mdat_bytes l)) as (_ & C'). apply C'. exact Hm.
  - replace (be_val (bslice 16 20 (trun_bytes l (size b + 8)))) with (blen out + 8).
    + rewrite bdrop_app_r by lia. replace (blen out + 8 - blen out) with 8 by lia. unfold create_mdat.
      rewrite bdrop_app_r by (rewrite s32_len; lia). rewrite s32_len. change (8 - 4) with (blen (bstr "mdat")). apply bdrop_len.
    + unfold trun_bytes. rewrite app_assoc, app_assoc, app_assoc.
      rewrite bslice_app_r by (rewrite !blen_app, !s32_len; change (blen (bstr "trun")) with 4; lia).
      rewrite !blen_app, !s32_len. change (blen (bstr "trun")) with 4. change (16 - (4 + 4 + 4 + 4)) with 0. change (20 - (4 + 4 + 4 + 4)) with 4.
      rewrite bslice_0. rewrite btake_app_l by (rewrite s32_len; lia). rewrite btake_all by (rewrite s32_len; lia). rewrite s32_val, L.
      symmetry. pose proof (blen_nonneg out). apply Z.mod_small. lia.
Qed.

Lemma ok_inj : forall A (x y : A), Ok x = Ok y -> x = y.
Proof. intros A x y H. congruence. Qed.

(** With encryption, the offset box says where the first initialization vector is. *)
Lemma C77_first_iv_pf : forall nr track l s aux b out, moof_box nr track l (Some (s :: aux)) = Ok b -> serialize b = Ok out ->
  bslice 89 93 out = bstr "saio" /\ 0 <= se_iv s < 18446744073709551616 /\
  (let o := be_val (bslice 101 105 out) in be_val (bslice o (o + 8) out) = se_iv s).
Proof.
  intros nr track l s aux b out Hb H. unfold moof_box in Hb. destruct l as [|s0 l]; [discriminate|]. cbn [bind] in Hb.
  remember (s0 :: l) as k. apply ok_inj in Hb. subst b.
  match type of H with context [W_trun (map run_of k) ?o] => generalize o, H; clear H; intros off H end.
  apply container_inv in H. destruct H as (x & E & ->). cbn [map] in E. apply join_cons in E. destruct E as (a & c & E1 & E2 & ->).
  apply join_cons in E2. destruct E2 as (d & e & E2 & E3 & ->). inversion E3; subst e. clear E3. rewrite app_nil_r.
  apply container_inv in E2. destruct E2 as (y & E2 & ->). remember (W_trun _ _) as tr. clear Heqtr. cbn [app] in E2.
  cbn [map] in E2. apply join_cons in E2. destruct E2 as (tfhd & y1 & Etfhd & E2 & ->).
  apply join_cons in E2. destruct E2 as (tfdt & y2 & Etfdt & E2 & ->).
  apply join_cons in E2. destruct E2 as (saiz & y3 & Esaiz & E2 & ->).
  apply join_cons in E2. destruct E2 as (saio & y4 & Esaio & E2 & ->).
  apply join_cons in E2. destruct E2 as (senc & y5 & Esenc & E2 & ->).
  pose proof (proj1 (C77_complete_partial_pf (W_mfhd nr) a I E1)) as L1.
  pose proof (proj1 (C77_complete_partial_pf (W_tfhd track) tfhd I Etfhd)) as L2.
  pose proof (proj1 (C77_complete_partial_pf (W_tfdt (s_time s0)) tfdt I Etfdt)) as L3.
  pose proof (proj1 (C77_complete_partial_pf (W_saiz 8 []) saiz I Esaiz)) as L4.
  cbn [size llen List.length] in L1, L2, L3. change (size (W_saiz 8 [])) with 17 in L4.
  change (serialize (W_saio _)) with (Ok (serialize_u32 20 ++ bstr "saio" ++ serialize_u32 0 ++ serialize_u32 1 ++ serialize_u32 121 ++ [])) in Esaio.
  assert (Es : saio = serialize_u32 20 ++ bstr "saio" ++ serialize_u32 0 ++ serialize_u32 1 ++ serialize_u32 121 ++ []) by congruence.
  clear Esaio. cbn [serialize app] in Esenc. cbn [flat_map] in Esenc.
  apply join_cons in Esenc. destruct Esenc as (h1 & z1 & F1 & Esenc & ->). apply join_cons in Esenc. destruct Esenc as (h2 & z2 & F2 & Esenc & ->).
  apply join_cons in Esenc. destruct Esenc as (h3 & z3 & F3 & Esenc & ->). apply join_cons in Esenc. destruct Esenc as (h4 & z4 & F4 & Esenc & ->).
  unfold senc_fields at 1 in Esenc. cbn [app] in Esenc. apply join_cons in Esenc. destruct Esenc as (iv & z5 & F5 & Esenc & ->).
  apply wide_u32 in F1. apply wide_name in F2. apply wide_u32 in F3. apply wide_u32 in F4.
  apply p64_inv in F5. destruct F5 as (R & ->).
  match goal with |- context [serialize_u32 ?q ++ serialize_name (bstr "moof") ++ _] => set (hd := serialize_u32 q) end.
  match goal with |- context [serialize_u32 ?q ++ serialize_name (bstr "traf") ++ _] => set (hd2 := serialize_u32 q) end.
  assert (Lh : blen hd = 4) by apply s32_len. assert (Lh2 : blen hd2 = 4) by apply s32_len.
  clearbody hd hd2.
  remember (hd ++ serialize_name (bstr "moof") ++ a ++ hd2 ++ serialize_name (bstr "traf") ++ tfhd ++ tfdt ++ saiz) as pre.
  assert (Lpre : blen pre = 85) by (subst pre; rewrite !blen_app, !name_len; lia).
  replace (hd ++ serialize_name (bstr "moof") ++ a ++ hd2 ++ serialize_name (bstr "traf") ++ tfhd ++ tfdt ++ saiz ++ saio ++ (h1 ++ h2 ++ h3 ++ h4 ++ be_bytes 8 (se_iv s) ++ z5) ++ y5)
    with (pre ++ saio ++ (h1 ++ h2 ++ h3 ++ h4 ++ be_bytes 8 (se_iv s) ++ z5) ++ y5) by (subst pre; rewrite <- !app_assoc; reflexivity).
  assert (Lsaio : blen saio = 20) by (subst saio; reflexivity).
  split; [|split; [exact R|]].
  - rewrite bslice_app_r by lia. rewrite Lpre. rewrite bslice_app_l by lia. subst saio. reflexivity.
  - assert (Ho : be_val (bslice 101 105 (pre ++ saio ++ (h1 ++ h2 ++ h3 ++ h4 ++ be_bytes 8 (se_iv s) ++ z5) ++ y5)) = 121).
    { rewrite bslice_app_r by lia. rewrite Lpre. rewrite bslice_app_l by lia. subst saio. reflexivity. }
    cbv zeta. rewrite Ho. rewrite bslice_app_r by lia. rewrite bslice_app_r by lia. rewrite Lpre, Lsaio. rewrite <- !app_assoc.
    do 4 (rewrite bslice_app_r by lia). rewrite F1, F2, F3, F4.
    change (121 - 85 - 20 - 4 - 4 - 4 - 4) with 0. change (121 + 8 - 85 - 20 - 4 - 4 - 4 - 4) with 8. rewrite bslice_0.
    rewrite btake_app_l by (rewrite blen_be_bytes; lia). rewrite btake_all by (rewrite blen_be_bytes; lia). apply be8_val. exact R.
Qed.

(** Given numbers that fit, they are written. *)
Definition writes (r : result bytes) : Prop := exists out, r = Ok out.
Lemma writes_cons : forall r l, writes r -> writes (join_bytes l) -> writes (join_bytes (r :: l)).
Proof. intros r l (x & ->) (y & E). exists (x ++ y). cbn [join_bytes bind]. rewrite E. reflexivity. Qed.
Lemma writes_nil : writes (join_bytes []).
Proof. exists []. reflexivity. Qed.
Lemma writes_ok : forall x, writes (Ok x).
Proof. intros x. exists x. reflexivity. Qed.
Lemma writes_u16 : forall x, 0 <= x < 65536 -> writes (u16 x).
Proof. intros x H. exists (be_bytes 2 x). apply s16_ok. exact H. Qed.
Lemma writes_container : forall t l, Forall (fun b => writes (serialize b)) l -> writes (serialize (W_container t l)).
Proof.
  intros t l H. cbn [serialize]. rewrite writes_eq. do 2 (apply writes_cons; [apply writes_ok|]). apply writes_cons; [|apply writes_nil].
  induction H as [|b l Hb Hl IH]; [apply writes_nil|]. cbn [map]. apply writes_cons; assumption.
Qed.
Ltac fields_tac := cbn [serialize app matrix times repeat];
  repeat (apply writes_cons; [first [apply writes_ok | apply writes_u16; lia | eexists; reflexivity | assumption]|]); apply writes_nil.
Lemma writes_mdhd : forall a b c, writes (serialize (W_mdhd a b c)).
Proof.
  intros a b c. cbn [serialize]. unfold mdhd_bytes.
  assert (W : exists v, serialize_u16 (match lang_bits c with Ok v => v | Err _ => 21956 end) = Ok v).
  { destruct (written_ok a b c) as (code & Hc & E & _). unfold mdhd_bytes in E.
    destruct (serialize_u16 (match lang_bits c with Ok v => v | Err _ => 21956 end)) as [v|e]; [exists v; reflexivity|discriminate]. }
  destruct W as (v & ->). cbn [bind]. eexists. reflexivity.
Qed.
Lemma writes_minf : forall stsd mh, writes (serialize stsd) -> writes (serialize mh) -> writes (serialize (create_minf_box stsd mh)).
Proof.
  intros stsd mh H1 H2. unfold create_minf_box. apply writes_container. constructor; [exact H2|]. constructor; [|constructor; [|constructor]].
  - apply writes_container. constructor; [fields_tac|constructor].
  - apply writes_container. constructor; [exact H1|]. repeat (constructor; [fields_tac|]). constructor.
Qed.
Lemma writes_mdia : forall mt h ts du la stsd mh, writes (serialize stsd) -> writes (serialize mh) -> writes (serialize (create_box_mdia mt h ts du la stsd mh)).
Proof.
  intros. unfold create_box_mdia. apply writes_container. constructor; [apply writes_mdhd|]. constructor; [fields_tac|].
  constructor; [apply writes_minf; assumption|constructor].
Qed.
Lemma writes_tkhd : forall t d v w h, 0 <= v < 65536 -> writes (serialize (W_tkhd t d v w h)).
Proof. intros. fields_tac. Qed.
Lemma writes_mvhd : forall t d n, writes (serialize (W_mvhd t d n)).
Proof. intros. fields_tac. Qed.
Lemma writes_mvex : forall t, writes (serialize (mvex t)).
Proof. intros. apply writes_container. constructor; [fields_tac|constructor]. Qed.
Lemma writes_stsd : forall b, writes (serialize b) -> writes (serialize (W_stsd [b])).
Proof. intros b H. cbn [serialize app]. do 4 (apply writes_cons; [apply writes_ok|]). apply writes_cons; [|apply writes_nil].
  destruct H as (x & ->). cbn [bind]. apply writes_ok. Qed.
Lemma movie_time_ok : forall d t, t <> 0 -> exists x, movie_time d t = Ok x.
Proof. intros d t H. unfold movie_time. rewrite (proj2 (Z.eqb_neq t 0) H). eexists. reflexivity. Qed.

Lemma C77_written_pf : forall m, mi_timescale m <> 0 ->
  (forall w h pr co le sps pps, 0 <= w < 65536 -> 0 <= h < 65536 -> blen sps < 65536 -> blen pps < 65536 ->
     exists b out, create_moov_h264 m w h pr co le sps pps = Ok b /\ serialize b = Ok out) /\
  (forall a, 0 <= ai_channels a < 65536 -> 0 <= ai_sample_size a < 65536 ->
     (exists b out, create_moov_mp4a m a = Ok b /\ serialize b = Ok out) /\
     (forall codec, In codec ["ac-3"; "ec-3"; "ec+3"]%string -> exists b out, create_moov_ac3 codec m a = Ok b /\ serialize b = Ok out)) /\
  (forall lang, exists b out, create_moov_mp4s m lang = Ok b /\ serialize b = Ok out).
Proof.
  intros m Hm. destruct (movie_time_ok (mi_duration m) _ Hm) as (d & Ed). split; [|split].
  - intros w h pr co le sps pps Hw Hh Hs Hp. pose proof (blen_nonneg sps). pose proof (blen_nonneg pps).
    unfold create_moov_h264, create_moov, create_box_trak_visual. rewrite Ed. cbn [bind vi_width vi_height vi_config]. eexists.
    match goal with |- exists out, Ok ?b = _ /\ _ => assert (W : writes (serialize b)) end.
    { apply writes_container. constructor; [apply writes_mvhd|]. constructor; [|constructor; [apply writes_mvex|constructor]].
      apply writes_container. constructor; [apply writes_tkhd; lia|]. constructor; [|constructor]. apply writes_mdia; [|fields_tac].
      apply writes_stsd. assert (A : writes (serialize (W_avcC pr co le sps pps))) by fields_tac.
      remember (W_avcC pr co le sps pps) as av. clear Heqav. fields_tac. }
    destruct W as (out & W). exists out. split; [reflexivity|exact W].
  - intros a Hc Hz.
    assert (W : forall t, exists out, serialize (W_container (bstr "moov") [W_mvhd 90000 d (mi_track m + 1); mvex (mi_track m);
      W_container (bstr "trak") [W_tkhd (mi_track m) d 256 0 0;
       create_box_mdia (bstr "soun") (bstr "Edgeware Audio Media Handler") (mi_timescale m) (mi_duration m) (ai_lang a)
       (create_stsd_audio t (ai_channels a) (ai_sample_size a) (ai_sample_rate a) (ai_specific a)) W_smhd]]) = Ok out).
    { intros t. apply writes_container. constructor; [apply writes_mvhd|]. constructor; [apply writes_mvex|constructor; [|constructor]].
      apply writes_container. constructor; [apply writes_tkhd; lia|]. constructor; [|constructor]. apply writes_mdia; [|fields_tac].
      apply writes_stsd. fields_tac. }
    split.
    + unfold create_moov_mp4a, create_moov, create_box_trak_audio. rewrite Ed. cbn [bind]. destruct (W (bstr "mp4a")) as (out & E).
      eexists. exists out. split; [reflexivity|exact E].
    + intros codec Hi. unfold create_moov_ac3, create_moov, create_box_trak_audio. rewrite Ed. cbn [bind].
      destruct Hi as [<-|[<-|[<-|[]]]].
      * destruct (W (bstr "ac-3")) as (out & E). eexists. exists out. split; [reflexivity|exact E].
      * destruct (W (bstr "ec-3")) as (out & E). eexists. exists out. split; [reflexivity|exact E].
      * destruct (W (bstr "ec-3")) as (out & E). eexists. exists out. split; [reflexivity|exact E].
  - intros la. unfold create_moov_mp4s, create_moov, create_box_trak_mp4s. rewrite Ed. cbn [bind]. eexists.
    match goal with |- exists out, Ok ?b = _ /\ _ => assert (W : writes (serialize b)) end.
    { apply writes_container. constructor; [apply writes_mvhd|]. constructor; [apply writes_mvex|constructor; [|constructor]].
      apply writes_container. constructor; [apply writes_tkhd; lia|]. constructor; [|constructor]. apply writes_mdia; [|fields_tac].
      apply writes_stsd. fields_tac. }
    destruct W as (out & W). exists out. split; [reflexivity|exact W].
Qed.

(** No init segment with HEVC is written. *)
Lemma fails_app : forall a b e, (forall out, join_bytes a = Ok out -> False) -> join_bytes (a ++ b) = e -> forall out, e <> Ok out.
Proof. intros a b e H <- out E. apply join_app in E. destruct E as (x & y & E & _). exact (H _ E). Qed.
Lemma C77_hevc_refuted_pf :
  (exists m w h vps sps pps b, create_moov_hevc m w h vps sps pps = Ok b /\ serialize b = Err "NameError") /\
  (forall m w h vps sps pps b out, create_moov_hevc m w h vps sps pps = Ok b -> serialize b <> Ok out).
Proof.
  split.
  - exists (mk_media_info 1 90000 180000), 640, 360, [64; 1], [66; 1], [68; 1]. eexists. split; reflexivity.
  - intros m w h vps sps pps b out H E. unfold create_moov_hevc, create_moov, create_box_trak_visual in H.
    destruct (movie_time (mi_duration m) (mi_timescale m)) as [d|]; [|discriminate]. cbn [bind vi_width vi_height vi_config] in H.
    apply ok_inj in H. subst b.
    apply container_inv in E. destruct E as (x & E & _). cbn [map] in E. apply join_cons in E. destruct E as (? & ? & _ & E & _).
    apply join_cons in E. destruct E as (? & ? & E & _ & _).
    apply container_inv in E. destruct E as (y & E & _). cbn [map] in E. apply join_cons in E. destruct E as (? & ? & _ & E & _).
    apply join_cons in E. destruct E as (? & ? & E & _ & _).
    apply container_inv in E. destruct E as (z & E & _). cbn [map] in E. do 2 (apply join_cons in E; destruct E as (? & ? & _ & E & _)).
    apply join_cons in E. destruct E as (? & ? & E & _ & _).
    apply container_inv in E. destruct E as (v & E & _). cbn [map] in E. do 2 (apply join_cons in E; destruct E as (? & ? & _ & E & _)).
    apply join_cons in E. destruct E as (? & ? & E & _ & _).
    apply container_inv in E. destruct E as (u & E & _). cbn [map] in E. apply join_cons in E. destruct E as (? & ? & E & _ & _).
    unfold create_stsd_visual in E. remember (W_hvcC vps sps pps) as hv. cbn [serialize app] in E.
    do 4 (apply join_cons in E; destruct E as (? & ? & _ & E & _)). apply join_cons in E. destruct E as (? & ? & E & _ & _).
    apply bind_ok in E. destruct E as (? & E & _). do 16 (apply join_cons in E; destruct E as (? & ? & _ & E & _)).
    apply join_cons in E. destruct E as (? & ? & E & _ & _). subst hv. discriminate E.
Qed.

(** The condition of C77_complete_partial is needed. *)
Lemma big_mdat : forall data, blen data = 4294967296 -> exists out, serialize (W_mdat [data]) = Ok out /\ announced out = 8 /\ blen out = 4294967304.
Proof.
  intros data H. exists (serialize_u32 (8 + (blen data + 0)) ++ bstr "mdat" ++ data ++ []). split; [reflexivity|]. rewrite H. split.
  - unfold announced. rewrite btake_app_l by (rewrite s32_len; lia). rewrite btake_all by (rewrite s32_len; lia). rewrite s32_val. reflexivity.
  - rewrite !blen_app, s32_len, H. reflexivity.
Qed.
Lemma C77_size_refuted_pf :
  (exists type name out, serialize (W_hdlr type name) = Ok out /\ announced out <> blen out) /\
  (exists type groups out, serialize (W_sgpd type groups) = Ok out /\ announced out <> blen out) /\
  (exists samples out, serialize (W_senc 8 samples) = Ok out /\ announced out <> blen out) /\
  (exists iv samples out, senc_uniform samples /\ serialize (W_senc iv samples) = Ok out /\ announced out <> blen out) /\
  (exists version refs out, serialize (W_sidx 1 90000 0 version refs) = Ok out /\ announced out <> blen out) /\
  (exists data out, serialize (W_mdat data) = Ok out /\ announced out <> blen out).
Proof.
  split; [|split; [|split; [|split; [|split]]]].
  - exists (bstr "video"), (bstr "x"). eexists. split; [reflexivity|vm_compute; discriminate].
  - exists 1936025959, [mk_sgpd_group true 8 [1; 2; 3]]. eexists. split; [reflexivity|vm_compute; discriminate].
  - exists [mk_senc_sample 1 (Some [(5, 100)]); mk_senc_sample 2 (Some [])]. eexists. split; [reflexivity|vm_compute; discriminate].
  - exists 16, [mk_senc_sample 1 None]. eexists. split; [|split; [reflexivity|vm_compute; discriminate]].
    right. constructor; [|constructor]. intros (x & l & H). discriminate.
  - exists 2, [mk_sidx_ref 0 1000 180000 1 1 0]. eexists. split; [reflexivity|vm_compute; discriminate].
  - exists [repeat 0 (Z.to_nat 4294967296)]. destruct (big_mdat (repeat 0 (Z.to_nat 4294967296))) as (out & E & A & L).
    + unfold blen. rewrite repeat_length. apply Z2Nat.id. lia.
    + exists out. split; [exact E|]. rewrite A, L. discriminate.
Qed.

(** The box with the sizes of the auxiliary data has none of them, and 8 bytes as size of all. *)
Lemma C77_saiz_refuted_pf : exists nr track l aux b out, aux_ok (Some aux) /\ List.length aux = List.length l /\
  moof_box nr track l (Some aux) = Ok b /\ serialize b = Ok out /\
  bslice 72 76 out = bstr "saiz" /\ be_val (bslice 81 85 out) <> Z.of_nat (List.length l) /\
  be_val (bslice 80 81 out) <> 8 + 2 + 6.
Proof.
  exists 7, 1, [mk_sample [1; 2; 3] 90000 3000 true 0], [mk_senc_sample 5 (Some [(1, 2)])]. eexists. eexists.
  split; [left; constructor; [exists (1, 2), []; reflexivity|constructor]|]. split; [reflexivity|]. split; [reflexivity|]. split; [reflexivity|].
  vm_compute. split; [reflexivity|]. split; discriminate.
Qed.

(** Examples *)
Definition ex_media : media_info := mk_media_info 1 90000 180000.
Example C77_init_case : exists b out, create_moov_h264 ex_media 640 360 100 0 30 [103; 100; 0; 30] [104; 235] = Ok b /\
  init_box b /\ proper b /\ serialize b = Ok out /\ blen out < 4294967296 /\ announced out = 624.
Proof.
  eexists. eexists. split; [reflexivity|].
  split; [apply (ib_h264 ex_media 640 360 100 0 30 [103; 100; 0; 30] [104; 235]); reflexivity|].
  split; [apply init_proper, (ib_h264 ex_media 640 360 100 0 30 [103; 100; 0; 30] [104; 235]); reflexivity|].
  split; [reflexivity|]. vm_compute. split; reflexivity.
Qed.
Definition ex_runs : list sample := [mk_sample [1; 2; 3] 90000 3000 true 0; mk_sample [4; 5] 93000 3000 false 3000].
Definition ex_aux : list senc_sample := [mk_senc_sample 72623859790382856 (Some [(1, 2)]); mk_senc_sample 9 (Some [(0, 2)])].
Example C77_fragment_case : exists b out, aux_ok (Some ex_aux) /\ moof_box 7 1 ex_runs (Some ex_aux) = Ok b /\ serialize b = Ok out /\
  blen out + 8 < 4294967296 /\ bslice 121 129 out = [1; 2; 3; 4; 5; 6; 7; 8] /\ blen (create_mdat ex_runs) < 4294967296.
Proof.
  eexists. eexists. split; [left; repeat (constructor; [eexists; eexists; reflexivity|]); constructor|]. split; [reflexivity|]. split; [reflexivity|].
  vm_compute. repeat split; reflexivity.
Qed.
Example C77_chunks_case : exists b out, moof_box 7 1 ex_runs None = Ok b /\ serialize b = Ok out /\ create_moof 7 1 ex_runs = Ok out.
Proof. eexists. eexists. split; [reflexivity|]. split; reflexivity. Qed.
Example C77_written_case : mi_timescale ex_media <> 0 /\ blen [103; 100; 0; 30] < 65536 /\
  exists b out, create_moov_ac3 "ec+3" ex_media (mk_audio_info 6 16 48000 (be32 11 ++ bstr "dec3" ++ [1; 2; 3]) "swe") = Ok b /\ serialize b = Ok out.
Proof. split; [discriminate|]. split; [reflexivity|]. eexists. eexists. split; reflexivity. Qed.
