(** Captions in a whole segment. *)
From Coq Require Import ZifyBool ZifyNat Permutation.
From Verif Require Import Base BaseProofs BytesModel BytesProofs BoxSpec Mp4Model Mp4Proofs ChunkModel ChunkSpec ChunkParse CcModel CcSpec CcProofs CcProofs2 CcProofs3.
From Verif Require MediaSpec MediaProofs5.
Open Scope Z_scope.

(** ** Every caption of the segment is in exactly one sample *)
Lemma filter_two : forall A (p q r : A -> bool) l, (forall x, r x = p x || q x) -> (forall x, p x && q x = false) ->
  Permutation (filter p l ++ filter q l) (filter r l).
Proof.
  intros A p q r l HR HD. induction l as [|x l IH]; [constructor|]. cbn [filter]. rewrite HR. specialize (HD x).
  destruct (p x), (q x); cbn [orb andb app] in *; try discriminate; auto.
  apply Permutation_sym. apply Permutation_cons_app. apply Permutation_sym. exact IH.
Qed.
Lemma tick_le : forall ts a b, 0 < ts -> a <= b -> (inject_Z a / inject_Z ts <= inject_Z b / inject_Z ts)%Q.
Proof.
  intros ts a b T L. unfold Qdiv. apply Qmult_le_compat_r; [rewrite <- Zle_Qle; exact L|].
  apply Qinv_le_0_compat. change 0%Q with (inject_Z 0). rewrite <- Zle_Qle. lia.
Qed.
Lemma shown_split : forall ts a b z c, 0 < ts -> a <= b <= z ->
  shown ts a z c = shown ts a b c || shown ts b z c /\ shown ts a b c && shown ts b z c = false.
Proof.
  intros ts a b z c T [L1 L2]. assert (X := tick_le ts a b T L1). assert (Y := tick_le ts b z T L2). unfold shown.
  set (qa := (inject_Z a / inject_Z ts)%Q) in *. set (qb := (inject_Z b / inject_Z ts)%Q) in *. set (qz := (inject_Z z / inject_Z ts)%Q) in *.
  assert (I : forall u v, Qle_bool u v = false -> ~ (u <= v)%Q) by (intros u v E H; apply Qle_bool_iff in H; congruence).
  destruct (Qle_bool qa (fst c)) eqn:A; destruct (Qle_bool qb (fst c)) eqn:B; destruct (Qle_bool qz (fst c)) eqn:Z1; cbn; auto; exfalso;
    rewrite ?Qle_bool_iff in *; repeat match goal with H : Qle_bool _ _ = false |- _ => apply I in H end.
  all: first [apply B; eapply Qle_trans; eauto; fail | apply A; eapply Qle_trans; eauto; fail | apply A; eapply Qle_trans; [exact X|]; eapply Qle_trans; eauto].
Qed.
Lemma seg_dur_nonneg : forall l, Forall (fun m => 0 <= ms_dur m) l -> 0 <= seg_dur l.
Proof. induction 1; cbn [seg_dur fold_right]; [lia|]. unfold seg_dur in *. lia. Qed.
Lemma once : forall ts caps l t, 0 < ts -> consecutive t l -> Forall (fun m => 0 <= ms_dur m) l ->
  Permutation (flat_map (captions_of ts caps) l) (filter (shown ts t (t + seg_dur l)) caps).
Proof.
  intros ts caps l. induction l as [|m l IH]; intros t T C D.
  - cbn [flat_map seg_dur fold_right]. rewrite Z.add_0_r.
    assert (E : filter (shown ts t t) caps = []).
    { induction caps as [|c r IHc]; [reflexivity|]. cbn [filter]. rewrite IHc. unfold shown. destruct (Qle_bool _ _); reflexivity. }
    rewrite E. constructor.
  - destruct C as [<- C]. inversion D as [|? ? D1 D']; subst. cbn [flat_map seg_dur fold_right]. fold (seg_dur l).
    assert (N := seg_dur_nonneg l D').
    eapply Permutation_trans; [apply Permutation_app_head; apply (IH _ T C D')|].
    unfold captions_of. apply filter_two; intros c; rewrite ?Z.add_assoc;
      destruct (shown_split ts (ms_time m) (ms_time m + ms_dur m) (ms_time m + ms_dur m + seg_dur l) c T ltac:(lia)); auto.
Qed.

(** ** Box lists *)
Lemma leaves_ok : forall l, Forall inert l -> boxes_ok opened any_payload l -> boxes_ok [bstr "moof"; bstr "traf"] any_payload l.
Proof.
  induction 1 as [|b l I H IH]; intros OK; [exact I|]. destruct OK as [B OK]. split; [|auto].
  destruct b as [t p|]; [|contradiction]. destruct B as (A1 & A2 & A3 & A4). repeat split; auto.
  intros [<-|[<-|[]]]; apply A2; cbn; tauto.
Qed.
Lemma leaf_ok : forall t p, box_ok opened any_payload (Leaf t p) -> box_ok [bstr "moof"; bstr "traf"] any_payload (Leaf t p).
Proof.
  intros t p (A1 & A2 & A3 & A4). repeat split; auto. intros [<-|[<-|[]]]; apply A2; cbn; tauto.
Qed.
Lemma plain_leaves : forall l, Forall inert l -> boxes_ok opened any_payload l -> Forall not_mdat l ->
  Forall (fun b => exists t p, b = Leaf t p /\ ~ In t heads /\ utf8_ok t = true) l.
Proof.
  induction 1 as [|b l I H IH]; intros OK N; [constructor|]. destruct OK as [B OK]. inversion N as [|? ? N1 N']; subst. constructor; [|auto].
  destruct b as [t p|]; [|contradiction]. destruct I as [I U]. exists t, p. split; [reflexivity|]. split; [|exact U].
  destruct B as (_ & A2 & _). unfold not_mdat in N1. cbn in N1. unfold heads. intros [<-|[<-|[<-|[<-|[]]]]].
  - apply A2. cbn. tauto.
  - apply A2. cbn. tauto.
  - apply I. cbn. tauto.
  - apply N1. reflexivity.
Qed.

Definition with_captioned (f : frag) (r : run) (post : list box) : frag :=
  mk_frag (f_pre f) (f_a1 f) (f_vf f) (f_nr f) (f_a2 f) (f_k1 f) (f_head f) (f_k2 f) (f_tfdt f) (f_k3 f) r (f_k4 f) (f_a3 f) post.

Lemma entry_durs : forall version flags e m, entry_ok version flags e -> row_of e m -> 0 <= ms_dur m /\ 0 <= blen (ms_data m) < 4294967296.
Proof. intros version flags e m (U1 & U2 & _) [D S]. rewrite D in U1. rewrite S in U2. cbn in U1, U2. lia. Qed.

Lemma durs_of : forall v fl es l, Forall2 row_of es l -> Forall (entry_ok v fl) es -> Forall (fun m => 0 <= ms_dur m) l.
Proof.
  intros v fl es l R. induction R as [|e m es l X R IH]; intros EOK; [constructor|]. inversion EOK as [|? ? E1 E2]; subst. constructor; [|auto].
  exact (proj1 (entry_durs v fl e m E1 X)).
Qed.

Lemma ran_one : forall S (rec : bytes -> bytes -> Z -> S -> result (bytes * S)) k fp st out st1,
  rec (btype k) (enc k) fp st = Ok (out, st1) -> ran rec [k] fp st out st1.
Proof. intros. rewrite <- (app_nil_r out). econstructor; [eassumption|constructor]. Qed.

Section Main.
  Variables (caps : list cc) (ts time field : Z) (f : frag) (d : track_defaults) (nr track : Z) (l : list media_sample).
  Variables (mid : list box) (payload : bytes) (post : list box).
  Hypothesis Hfield : field = 1 \/ field = 2.
  Hypothesis Hts : 0 < ts.
  Hypothesis Hcaps : Forall (fun c => (List.length (snd c) <= 31)%nat) caps.
  Hypothesis Hf : fragment_is f d (encs (f_boxes f)) nr track l.
  Hypothesis Htime : MediaSpec.decode_time (f_tfdt f) time.
  Hypothesis Hrun : plain_run f.
  Hypothesis Hmdat : one_mdat d f mid payload post.
  Hypothesis Hvideo : Forall (fun m => video_sample (ms_data m)) l.
  Hypothesis Hsize : 8 + blen payload + added field ts caps l < 4294967296.

  Notation cls := (cc_class caps ts time field).
  Notation es := (rn_entries (f_run f)).
  Definition nes := new_entries caps ts field es l.
  Definition r1 := with_run (f_run f) nes.

  Lemma Hl : l = frag_samples d f time.
  Proof.
    destruct Hf as (t & _ & _ & _ & _ & T & _ & _ & _ & E). rewrite (MediaProofs5.decode_time_fun _ _ _ Htime T). exact E.
  Qed.
  Lemma Hfok : frag_ok f.
  Proof. destruct Hf as (t & _ & OK & _). exact OK. Qed.
  Lemma Hrunok : run_ok (f_run f).
  Proof. destruct Hfok as (_ & _ & _ & _ & _ & R). exact R. Qed.
  Lemma some_es : Forall (fun e => exists v, en_dur e = Some v) es /\ Forall (fun e => exists v, en_size e = Some v /\ 0 <= v) es.
  Proof.
    destruct Hrun as (_ & _ & _ & P). destruct Hrunok as (_ & _ & _ & _ & _ & _ & _ & EOK).
    rewrite Forall_forall in P, EOK. rewrite !Forall_forall. split; intros e I; destruct (P e I) as [P1 P2]; destruct (EOK e I) as (U1 & U2 & _).
    - destruct (en_dur e) as [v|]; [exists v; reflexivity|congruence].
    - destruct (en_size e) as [v|]; [exists v; split; [reflexivity|apply U2]|congruence].
  Qed.
  Lemma bounds : 0 <= media_at f /\ media_at f + sizes d (f_head f) es <= blen (encs (f_boxes f)).
  Proof. destruct Hf as (t & _ & _ & _ & _ & _ & A & _ & B & _). split; [exact A|exact B]. Qed.
  Lemma rows : 0 <= sizes d (f_head f) es /\
    bslice (media_at f) (media_at f + sizes d (f_head f) es) (encs (f_boxes f)) = List.concat (map ms_data l) /\
    Forall2 row_of es l /\ consecutive time l.
  Proof.
    rewrite Hl. destruct some_es as [D S]. destruct bounds as [A B]. apply samples_in; auto.
  Qed.
  Lemma durs : Forall (fun m => 0 <= ms_dur m) l.
  Proof.
    destruct rows as (_ & _ & R & _). destruct Hrunok as (_ & _ & _ & _ & _ & _ & _ & EOK). exact (durs_of _ _ _ _ R EOK).
  Qed.
  Lemma one_each : Permutation (flat_map (captions_of ts caps) l) (filter (shown ts time (time + seg_dur l)) caps).
  Proof. apply once; [exact Hts| |exact durs]. apply rows. Qed.

  (** where the samples are in the payload *)
  Definition before_mdat : list box := f_pre f ++ f_moof f :: mid.
  Lemma file_eq : encs (f_boxes f) = encs before_mdat ++ be32 (8 + blen payload) ++ bstr "mdat" ++ payload ++ encs post.
  Proof.
    destruct Hmdat as (P & _). unfold f_boxes, before_mdat. rewrite P. rewrite !encs_app. cbn [encs]. rewrite !encs_app. cbn [encs enc].
    rewrite <- !app_assoc. reflexivity.
  Qed.
  Lemma cut : exists x y, payload = x ++ List.concat (map ms_data l) ++ y /\ media_at f = blen (encs before_mdat) + 8 + blen x.
  Proof.
    destruct Hmdat as (_ & _ & A & B). fold before_mdat in A, B. destruct rows as (N & E & _).
    change (media_len d f) with (sizes d (f_head f) es) in B.
    set (o := media_at f - (blen (encs before_mdat) + 8)). assert (O : 0 <= o) by (unfold o; lia).
    assert (OB : o + sizes d (f_head f) es <= blen payload) by (unfold o; lia).
    exists (btake o payload), (bdrop (o + sizes d (f_head f) es) payload). split.
    - rewrite <- E. rewrite file_eq. symmetry.
      rewrite (app_assoc (be32 _)), (app_assoc (encs before_mdat)).
      assert (LH : blen (encs before_mdat ++ be32 (8 + blen payload) ++ bstr "mdat") = blen (encs before_mdat) + 8) by (rewrite blen_app; reflexivity).
      assert (NB := blen_nonneg (encs before_mdat)).
      rewrite bslice_app_r by lia. rewrite LH. fold o.
      replace (media_at f + sizes d (f_head f) es - (blen (encs before_mdat) + 8)) with (o + sizes d (f_head f) es) by (unfold o; lia).
      rewrite bslice_app_l by lia. apply bsplit; lia.
    - rewrite blen_btake by lia. unfold o. lia.
  Qed.
  Lemma Hadd : fold_right (fun m x => blen (cbytes caps ts field m) + x) 0 l = added field ts caps l.
  Proof. reflexivity. Qed.
  Lemma fits : Forall (fun m => blen (ms_data m) + blen (cbytes caps ts field m) < 4294967296) l.
  Proof.
    destruct cut as (x & y & EP & _).
    assert (B : 8 + (blen x + (blen (List.concat (map ms_data l)) + blen y)) + added field ts caps l < 4294967296) by (rewrite <- !blen_app, <- EP; exact Hsize).
    assert (NX := blen_nonneg x). assert (NY := blen_nonneg y).
    assert (B' : blen (List.concat (map ms_data l)) + added field ts caps l < 4294967296) by lia. clear -B'.
    revert B'. induction l as [|m r IH]; intros B; [constructor|]. cbn [map List.concat added fold_right] in B. fold (added field ts caps r) in B.
    rewrite blen_app in B. fold (cbytes caps ts field m) in B.
    assert (N1 := blen_nonneg (ms_data m)). assert (N2 := blen_nonneg (cbytes caps ts field m)). assert (N3 := blen_nonneg (List.concat (map ms_data r))).
    assert (N4 : 0 <= added field ts caps r).
    { clear. induction r as [|m r IH]; cbn [added fold_right]; [lia|]. fold (added field ts caps r). assert (N := blen_nonneg (caption_bytes field (captions_of ts caps m))). lia. }
    constructor; [lia|apply IH; lia].
  Qed.

  Lemma off_some : exists off, rn_offset (f_run f) = Some off /\ 0 <= off /\ media_at f = blen (encs (f_pre f)) + off.
  Proof.
    destruct Hrun as (B & O & _). destruct (rn_offset (f_run f)) as [off|] eqn:E; [|congruence]. exists off. split; [reflexivity|].
    destruct cut as (x & y & _ & M). unfold media_at in *. rewrite B, E in *. cbn [either] in *. split; [|reflexivity].
    unfold before_mdat in M. rewrite encs_app, blen_app in M. cbn [encs] in M. rewrite blen_app in M.
    assert (N1 := blen_nonneg (enc (f_moof f))). assert (N2 := blen_nonneg (encs mid)). assert (N3 := blen_nonneg x). lia.
  Qed.

  (** the movie fragment box *)
  Definition g (p : list box) : frag := with_captioned f r1 p.
  Definition st1 (off : Z) : cstate := mk_cstate off (new_map caps ts field l 0) (Some (blen (encs (f_pre f)))) None.
  Lemma around_ok : forall b, In b (around f) -> In b (f_pre f ++ around f ++ mid ++ post).
  Proof. intros. rewrite !in_app_iff. tauto. Qed.
  Lemma not_mdats : Forall not_mdat (f_pre f) /\ Forall not_mdat (f_a1 f) /\ Forall not_mdat (f_a2 f) /\ Forall not_mdat (f_k1 f) /\
    Forall not_mdat (f_k2 f) /\ Forall not_mdat (f_k3 f) /\ Forall not_mdat (f_k4 f) /\ Forall not_mdat (f_a3 f) /\ Forall not_mdat mid /\ Forall not_mdat post.
  Proof. destruct Hmdat as (_ & N & _). unfold around in N. rewrite !Forall_app in N. tauto. Qed.
  Lemma run_len : blen (run_payload r1) = blen (run_payload (f_run f)).
  Proof.
    destruct off_some as (off & EO & O & _). destruct rows as (_ & _ & R & C). destruct Hrun as (_ & _ & F1 & _).
    destruct (frag_parts_ok f Hfok) as [_ _ _ _ _ _ _ _ _ _ _ _ _ _ PR]. 
    assert (S8 : 8 + blen (run_payload (f_run f)) < 4294967296) by (apply PR).
    apply (trun_ok caps ts time field Hfield ltac:(lia) Hcaps (f_run f) l cstate0 off Hrunok EO O F1 R C fits S8).
  Qed.
  Lemma moof_ok : box_ok (fc_composite cls) any_payload (f_moof f).
  Proof.
    destruct (frag_parts_ok f Hfok) as [P0 P1 P2 P3 P4 P5 P6 P7 P8 PM PT PF PH PD PR].
    assert (PM' := PM). unfold f_moof in PM' |- *. apply box_ok_node in PM'. apply box_ok_node. destruct PM' as (A1 & A2 & A3 & A4).
      split; [exact A1|]. split; [cbn; tauto|]. split; [exact A3|]. cbn [fc_composite cc_class].
      rewrite boxes_ok_app in A4 |- *. cbn [boxes_ok] in A4 |- *. rewrite boxes_ok_app in A4 |- *. cbn [boxes_ok] in A4 |- *.
      destruct A4 as (B1 & B2 & B3 & B4 & B5).
      split; [apply leaves_ok; tauto|]. split; [apply leaf_ok; exact B2|]. split; [apply leaves_ok; tauto|]. split; [|apply leaves_ok; tauto].
      assert (PT' := PT). unfold f_traf in PT' |- *. apply box_ok_node in PT'. apply box_ok_node. destruct PT' as (D1 & D2 & D3 & D4).
      split; [exact D1|]. split; [cbn; tauto|]. split; [exact D3|].
      rewrite boxes_ok_app in D4 |- *. cbn [boxes_ok] in D4 |- *. rewrite boxes_ok_app in D4 |- *. cbn [boxes_ok] in D4 |- *. rewrite boxes_ok_app in D4 |- *. cbn [boxes_ok] in D4 |- *.
      destruct D4 as (E1 & E2 & E3 & E4 & E5 & E6 & E7).
      split; [apply leaves_ok; tauto|]. split; [apply leaf_ok; exact E2|]. split; [apply leaves_ok; tauto|]. split; [apply leaf_ok; exact E4|].
      split; [apply leaves_ok; tauto|]. split; [apply leaf_ok; exact E6|]. apply leaves_ok; tauto.
  Qed.
  Lemma moof_step : forall off fuel, rn_offset (f_run f) = Some off -> 0 <= off ->
    (List.length (enc (f_moof f)) < fuel)%nat ->
    filter_box cls fuel (bstr "moof") (enc (f_moof f)) (blen (encs (f_pre f))) cstate0 = Ok (enc (f_moof (g (f_post f))), st1 off).
  Proof.
    intros off fuel EO O FU. destruct rows as (_ & _ & R & C). destruct Hrun as (_ & _ & F1 & _).
    destruct (frag_parts_ok f Hfok) as [P0 P1 P2 P3 P4 P5 P6 P7 P8 PM PT PF PH PD PR].
    destruct not_mdats as (M0 & M1 & M2 & M3 & M4 & M5 & M6 & M7 & _).
    assert (S8 : 8 + blen (run_payload (f_run f)) < 4294967296) by (apply PR).
    destruct fuel as [|fuel]; [lia|].
    assert (LEAF : forall t p fp st n, box_ok opened any_payload (Leaf t p) -> ~ In t heads -> utf8_ok t = true ->
      ran (filter_box cls (Datatypes.S n)) [Leaf t p] fp st (enc (Leaf t p)) st).
    { intros. apply ran_one. apply leaf_same; auto. }
    assert (LEAVES : forall l0 fp st n, Forall inert l0 /\ boxes_ok opened any_payload l0 -> Forall not_mdat l0 ->
      ran (filter_box cls (Datatypes.S n)) l0 fp st (encs l0) st).
    { intros l0 fp st n [I1 I2] N. apply leaves_same. apply plain_leaves; auto. }
    assert (NH : forall s, In s ["mfhd"%string; "tfhd"%string; "tfdt"%string] -> ~ In (bstr s) heads /\ utf8_ok (bstr s) = true).
    { intros s I. cbn in I. destruct I as [<-|[<-|[<-|[]]]]; (split; [|reflexivity]); intros [X|[X|[X|[X|[]]]]]; discriminate X. }
    (* traf *)
    assert (TRAF : forall n fp st, (List.length (enc (f_traf f)) <= n)%nat ->
      filter_box cls (Datatypes.S n) (bstr "traf") (enc (f_traf f)) fp st =
      Ok (enc (f_traf (g (f_post f))), mk_cstate off (cs_map st ++ new_map caps ts field l 0) (cs_moof st) (cs_mdat st))).
    { intros n fp st FN. unfold f_traf.
      assert (TOK : box_ok (fc_composite cls) any_payload (f_traf f)).
      { assert (PT' := PT). unfold f_traf in PT' |- *. apply box_ok_node in PT'. apply box_ok_node. destruct PT' as (A1 & A2 & A3 & A4).
        split; [exact A1|]. split; [cbn; tauto|]. split; [exact A3|]. cbn [fc_composite cc_class].
        rewrite boxes_ok_app in A4 |- *. cbn [boxes_ok] in A4 |- *. rewrite boxes_ok_app in A4 |- *. cbn [boxes_ok] in A4 |- *. rewrite boxes_ok_app in A4 |- *. cbn [boxes_ok] in A4 |- *.
        destruct A4 as (B1 & B2 & B3 & B4 & B5 & B6 & B7).
        split; [apply leaves_ok; tauto|]. split; [apply leaf_ok; exact B2|]. split; [apply leaves_ok; tauto|]. split; [apply leaf_ok; exact B4|].
        split; [apply leaves_ok; tauto|]. split; [apply leaf_ok; exact B6|]. apply leaves_ok; tauto. }
      unfold f_traf in TOK, FN.
      eapply filter_node; [exact TOK| |rewrite !encs_app; cbn [encs]; rewrite !encs_app; cbn [encs]; rewrite !encs_app; cbn [encs g with_captioned f_k1 f_k2 f_k3 f_k4 f_head f_tfdt f_run]; rewrite !blen_app; do 6 f_equal; rewrite !blen_enc by reflexivity; cbn [body]; f_equal; exact run_len|exact FN].
      assert (NN : exists n', n = Datatypes.S n').
      { destruct n; [|eauto]. exfalso. rewrite enc_node in FN. cbn in FN. lia. }
      destruct NN as (n' & ->).
      cbn [fc_note cc_class]. change (c_note (bstr "traf") fp st) with st.
      cbn [g with_captioned f_k1 f_k2 f_k3 f_k4 f_head f_tfdt f_run].
      rewrite encs_app. eapply ran_app; [apply LEAVES; tauto|].
      cbn [encs].
      match goal with |- ran _ (?a :: ?b) _ _ _ _ => change (a :: b) with ([a] ++ b) end.
      eapply ran_app; [apply LEAF; [exact PH|apply NH; cbn; tauto|reflexivity]|].
      rewrite encs_app. eapply ran_app; [apply LEAVES; tauto|].
      cbn [encs]. match goal with |- ran _ (?a :: ?b) _ _ _ _ => change (a :: b) with ([a] ++ b) end.
      eapply ran_app; [apply LEAF; [exact PD|apply NH; cbn; tauto|reflexivity]|].
      rewrite encs_app. eapply ran_app; [apply LEAVES; tauto|].
      cbn [encs]. match goal with |- ran _ (?a :: ?b) _ _ _ _ => change (a :: b) with ([a] ++ b) end.
      eapply ran_app; [|apply LEAVES; tauto].
      apply ran_one. rewrite filter_leaf by (cbn; intros [X|[X|[]]]; discriminate X).
      unfold process_leaf. change (utf8_ok (btype (Leaf (bstr "trun") (run_payload (f_run f))))) with true. cbv iota.
      change (fc_method cls (btype (Leaf (bstr "trun") (run_payload (f_run f))))) with (Some (c_trun caps ts time field)). cbv iota.
      cbn [fc_note cc_class btype]. change (c_note (bstr "trun")) with (fun (_ : Z) (s : cstate) => s). cbv beta.
      apply (trun_ok caps ts time field Hfield ltac:(lia) Hcaps (f_run f) l st off Hrunok EO O F1 R C fits S8). }
    unfold f_moof.
    assert (MOK := moof_ok).
    assert (TLEN : blen (enc (f_traf (g (f_post f)))) = blen (enc (f_traf f))).
    { unfold f_traf. rewrite !blen_enc by reflexivity. cbn [body]. rewrite !encs_app; cbn [encs]; rewrite !encs_app; cbn [encs]; rewrite !encs_app; cbn [encs g with_captioned f_k1 f_k2 f_k3 f_k4 f_head f_tfdt f_run].
      rewrite !blen_app. do 7 f_equal. rewrite !blen_enc by reflexivity. cbn [body]. f_equal. exact run_len. }
    assert (FL : (List.length (enc (f_traf f)) + 8 <= fuel)%nat).
    { unfold f_moof in FU. rewrite enc_node, !app_length, encs_app, app_length in FU. cbn [encs] in FU. rewrite !app_length, encs_app, app_length in FU. cbn [encs] in FU. rewrite app_length in FU.
      change (List.length (be32 _)) with 4%nat in FU. change (List.length (bstr "moof")) with 4%nat in FU. lia. }
    unfold f_moof in MOK, FU.
    eapply filter_node; [exact MOK| | |lia].
    2:{ rewrite !encs_app. cbn [encs]. rewrite !encs_app. cbn [encs]. cbn [g with_captioned f_a1 f_a2 f_a3 f_vf f_nr]. fold (g (f_post f)). rewrite !blen_app, TLEN. reflexivity. }
    destruct fuel as [|n]; [lia|]. cbn [fc_note cc_class]. change (c_note (bstr "moof") (blen (encs (f_pre f))) cstate0) with (mk_cstate 0 [] (Some (blen (encs (f_pre f)))) None).
    cbn [g with_captioned f_a1 f_a2 f_a3 f_vf f_nr]. fold (g (f_post f)).
    rewrite encs_app. eapply ran_app; [apply LEAVES; tauto|].
    cbn [encs]. match goal with |- ran _ (?a :: ?b) _ _ _ _ => change (a :: b) with ([a] ++ b) end.
    eapply ran_app; [apply LEAF; [exact PF|apply NH; cbn; tauto|reflexivity]|].
    rewrite encs_app. eapply ran_app; [apply LEAVES; tauto|].
    cbn [encs]. match goal with |- ran _ (?a :: ?b) _ _ _ _ => change (a :: b) with ([a] ++ b) end.
    eapply ran_app; [|apply LEAVES; tauto].
    apply ran_one. change (btype (f_traf f)) with (bstr "traf"). rewrite TRAF by lia. reflexivity.
  Qed.

  (** the boxes of the new fragment *)
  Lemma traf_len : forall p, blen (enc (f_traf (g p))) = blen (enc (f_traf f)).
  Proof.
    intros p. unfold f_traf. rewrite !blen_enc by reflexivity. cbn [body]. rewrite !encs_app; cbn [encs]; rewrite !encs_app; cbn [encs]; rewrite !encs_app; cbn [encs g with_captioned f_k1 f_k2 f_k3 f_k4 f_head f_tfdt f_run].
    rewrite !blen_app. do 7 f_equal. rewrite !blen_enc by reflexivity. cbn [body]. f_equal. exact run_len.
  Qed.
  Lemma moof_len : forall p, blen (enc (f_moof (g p))) = blen (enc (f_moof f)).
  Proof.
    intros p. unfold f_moof. rewrite !blen_enc by reflexivity. cbn [body]. rewrite !encs_app. cbn [encs]. rewrite !encs_app. cbn [encs].
    rewrite !blen_app, traf_len. reflexivity.
  Qed.
  Lemma new_entries_ok : forall v fl es l, Forall2 row_of es l -> Forall (entry_ok v fl) es ->
    Forall (fun m => blen (ms_data m) + blen (cbytes caps ts field m) < 4294967296) l -> Forall (entry_ok v fl) (new_entries caps ts field es l).
  Proof.
    intros v fl es0 l0 R. induction R as [|e m es0 l0 [RD RS] R IH]; intros OK B; cbn [new_entries]; [constructor|].
    inversion OK as [|? ? (U1 & U2 & U3 & U4 & B8 & B9 & B10 & B11) OK']; subst. inversion B as [|? ? B1 B']; subst.
    constructor; [|auto]. unfold new_entry, entry_ok. cbn [en_dur en_size en_flags en_cto].
    assert (N1 := blen_nonneg (ms_data m)). assert (N2 := blen_nonneg (cbytes caps ts field m)).
    rewrite RS in B9. cbn [has] in B9 |- *. repeat split; auto; cbn; lia.
  Qed.
  Lemma new_run_ok : run_ok r1.
  Proof.
    destruct Hrunok as (V & F & O & FI & B0 & B2 & N & EOK). destruct rows as (_ & _ & R & _).
    unfold r1, with_run, run_ok. cbn [rn_version rn_flags rn_offset rn_first rn_entries].
    repeat (split; [assumption|]). split.
    - unfold nes. rewrite (new_len caps ts field es l R). exact N.
    - apply new_entries_ok; auto. exact fits.
  Qed.
  Lemma new_leaf : box_ok opened any_payload (Leaf (bstr "trun") (run_payload r1)).
  Proof.
    destruct (frag_parts_ok f Hfok) as [P0 P1 P2 P3 P4 P5 P6 P7 P8 PM PT PF PH PD PR]. destruct PR as (A1 & A2 & A3 & A4).
    split; [exact A1|]. split; [exact A2|]. split; [|exact I]. cbn [body] in *. rewrite run_len. exact A3.
  Qed.
  Lemma new_frag_ok : forall p', Forall inert p' -> boxes_ok opened any_payload p' -> frag_ok (g p').
  Proof.
    intros p' I' OK'. assert (FOK := Hfok). destruct FOK as (B & I & VF & NR & HO & RO).
    destruct (frag_parts_ok f Hfok) as [P0 P1 P2 P3 P4 P5 P6 P7 P8 PM PT PF PH PD PR].
    split; [|split; [|split; [exact VF|split; [exact NR|split; [exact HO|exact new_run_ok]]]]].
    - unfold f_boxes. apply boxes_ok_app. split; [exact (proj2 P0)|]. split; [|exact OK'].
      assert (PM' := PM). unfold f_moof in PM'. apply box_ok_node in PM'. destruct PM' as (A1 & A2 & A3 & _).
      assert (PT' := PT). unfold f_traf in PT'. apply box_ok_node in PT'. destruct PT' as (D1 & D2 & D3 & _).
      assert (ML := moof_len p'). rewrite !blen_enc in ML by reflexivity. assert (TL := traf_len p'). rewrite !blen_enc in TL by reflexivity.
      unfold f_moof. apply box_ok_node. split; [exact A1|]. split; [exact A2|]. split; [unfold f_moof in ML; cbn [body] in ML; rewrite <- ML in A3; exact A3|].
      apply boxes_ok_app. split; [exact (proj2 P1)|]. split; [exact PF|]. apply boxes_ok_app. split; [exact (proj2 P2)|]. split; [|exact (proj2 P3)].
      unfold f_traf. apply box_ok_node. split; [exact D1|]. split; [exact D2|]. split; [unfold f_traf in TL; cbn [body] in TL; rewrite <- TL in D3; exact D3|].
      apply boxes_ok_app. split; [exact (proj2 P4)|]. split; [exact PH|]. apply boxes_ok_app. split; [exact (proj2 P5)|]. split; [exact PD|].
      apply boxes_ok_app. split; [exact (proj2 P6)|]. split; [exact new_leaf|exact (proj2 P7)].
    - rewrite !Forall_app in I |- *. cbn [g with_captioned f_pre f_a1 f_a2 f_k1 f_k2 f_k3 f_k4 f_a3 f_post]. tauto.
  Qed.

  Definition with_payload (p : bytes) : frag := g (mid ++ Leaf (bstr "mdat") p :: post).

  Theorem inserted : exists f' l' x y,
    cc_filter (encs (f_boxes f)) caps ts time field = Ok (encs (f_boxes f')) /\
    fragment_is f' d (encs (f_boxes f')) nr track l' /\
    same_around f f' /\ f_post f' = mid ++ Leaf (bstr "mdat") (x ++ List.concat (map ms_data l') ++ y) :: post /\
    payload = x ++ List.concat (map ms_data l) ++ y /\
    Forall2 (captioned field ts caps) l l' /\
    Permutation (flat_map (captions_of ts caps) l) (filter (shown ts time (time + seg_dur l)) caps).
  Proof.
    destruct off_some as (off & EO & O & MA). destruct cut as (x & y & EP & MC). destruct rows as (_ & _ & R & C).
    assert (LB : blen (encs before_mdat) = blen (encs (f_pre f)) + blen (enc (f_moof f)) + blen (encs mid)).
    { unfold before_mdat. rewrite encs_app. cbn [encs]. rewrite !blen_app. lia. }
    destruct (mdat_ok caps ts field l x y (blen (encs (f_pre f))) (blen (encs before_mdat)) off Hvideo ltac:(lia) ltac:(rewrite <- EP; exact Hsize))
      as (ss & SS & MD).
    set (f' := with_payload (x ++ List.concat ss ++ y)).
    destruct (frag_parts_ok f Hfok) as [P0 P1 P2 P3 P4 P5 P6 P7 P8 PM PT PF PH PD PR].
    destruct Hmdat as (PO & _). rewrite PO in P8. destruct P8 as [I8 O8]. rewrite Forall_app in I8. destruct I8 as [IM I8]. inversion I8 as [|? ? IMD IP]; subst x0 l0.
    apply boxes_ok_app in O8. destruct O8 as (OM & OMD & OP).
    assert (LSS : blen (x ++ List.concat ss ++ y) = blen payload + added field ts caps l).
    { rewrite EP. rewrite !blen_app. enough (Q : blen (List.concat ss) = blen (List.concat (map ms_data l)) + added field ts caps l) by lia.
      clear -SS. induction SS as [|m s l0 ss [_ L] SS IH]; [reflexivity|]. cbn [map List.concat added fold_right]. rewrite !blen_app, IH, L. unfold cbytes. fold (added field ts caps l0). lia. }
    assert (OMD' : box_ok opened any_payload (Leaf (bstr "mdat") (x ++ List.concat ss ++ y))).
    { destruct OMD as (A1 & A2 & A3 & A4). split; [exact A1|]. split; [exact A2|]. split; [|exact I]. cbn [body] in *. rewrite LSS. lia. }
    assert (FOK' : frag_ok f').
    { apply new_frag_ok.
      - rewrite Forall_app. split; [exact IM|]. constructor; [|exact IP]. exact IMD.
      - apply boxes_ok_app. split; [exact OM|]. split; [exact OMD'|exact OP]. }
    (* samples *)
    set (A := encs (f_pre f ++ f_moof f' :: mid) ++ be32 (8 + blen (x ++ List.concat ss ++ y)) ++ bstr "mdat" ++ x).
    assert (FILE' : encs (f_boxes f') = A ++ List.concat ss ++ (y ++ encs post)).
    { unfold A, f', with_payload, f_boxes. cbn [g with_captioned f_pre f_post]. rewrite !encs_app. cbn [encs]. rewrite !encs_app. cbn [encs enc].
      rewrite <- !app_assoc. reflexivity. }
    assert (LA : blen A = media_at f).
    { unfold A. rewrite encs_app, !blen_app. cbn [encs]. rewrite !blen_app.
      assert (LM : blen (enc (f_moof f')) = blen (enc (f_moof f))) by apply moof_len. rewrite LM.
      change (blen (be32 _)) with 4. change (blen (bstr "mdat")) with 4. lia. }
    assert (MA' : media_at f' = blen A) by (rewrite LA; reflexivity).
    destruct some_es as [ED ES].
    destruct (samples_new d (f_head f) (encs (f_boxes f)) es None time (media_at f) nes ss A (y ++ encs post)) as [N1 N2].
    { clear -R. unfold nes. induction R as [|e m es0 l0 [RD RS] R IH]; cbn [new_entries]; constructor; auto. }
    { unfold nes. revert R SS. clear. intros R. revert ss. induction R as [|e m es0 l0 [RD RS] R IH]; intros ss SS; inversion SS as [|? s ? ss' [_ L] SS']; subst; cbn [new_entries]; constructor; auto. }
    assert (RF : rn_first (f_run f) = None) by apply Hrun.
    assert (EL : entries_samples d (f_head f) (encs (f_boxes f)) None es time (media_at f) = l) by (rewrite <- RF; symmetry; exact Hl).
    rewrite EL in N2.
    set (l' := entries_samples d (f_head f) (A ++ List.concat ss ++ y ++ encs post) None nes time (blen A)) in *.
    assert (ML : media_len d f' = blen (List.concat ss)).
    { change (media_len d f') with (sizes d (f_head f) nes). unfold nes. clear -R SS. revert ss SS. induction R as [|e m es0 l0 [RD RS] R IH]; intros ss SS; inversion SS as [|? s ? ss' [_ L] SS']; subst; [reflexivity|].
      cbn [new_entries sizes fold_right List.concat]. fold (sizes d (f_head f) (new_entries caps ts field es0 l0)). rewrite blen_app, (IH _ SS'), L. reflexivity. }
    exists f', l', x, y. rewrite N1.
    split.
    { unfold cc_filter, mp4_filter.
      assert (TR : tran cls (f_boxes f) 0 cstate0 (encs (f_boxes f')) (mk_cstate off (new_map caps ts field l 0) (Some (blen (encs (f_pre f)))) (Some (blen (encs before_mdat))))).
      { destruct not_mdats as (M0 & _ & _ & _ & _ & _ & _ & _ & M8 & M9).
        unfold f_boxes at 1. rewrite PO. unfold f_boxes. unfold f' at 1. cbn [with_payload g with_captioned f_pre]. rewrite encs_app.
        eapply tran_app; [apply tops_same; apply plain_leaves; tauto|].
        cbn [encs]. eapply tran_cons.
        { intros n LN. unfold top_fun. change (bytes_in (btype (f_moof f)) (fc_top cls)) with true. cbv iota. rewrite Z.add_0_l.
          change (btype (f_moof f)) with (bstr "moof"). rewrite (moof_step off n EO O LN). reflexivity. }
        change (f_post f') with (mid ++ Leaf (bstr "mdat") (x ++ List.concat ss ++ y) :: post). rewrite encs_app.
        eapply tran_app; [apply tops_same; apply plain_leaves; tauto|].
        cbn [encs]. eapply tran_cons; [|apply tops_same; apply plain_leaves; tauto].
        intros n LN. unfold top_fun. change (bytes_in (btype (Leaf (bstr "mdat") payload)) (fc_top cls)) with true. cbv iota.
        destruct n as [|n]; [lia|]. rewrite filter_leaf by (cbn; intros [X|[X|[]]]; discriminate X).
        unfold process_leaf. change (utf8_ok (btype (Leaf (bstr "mdat") payload))) with true. cbv iota.
        change (fc_method cls (btype (Leaf (bstr "mdat") payload))) with (Some c_mdat). cbv iota.
        cbn [fc_note cc_class btype].
        match goal with |- c_mdat _ (c_note _ ?p _) = _ => replace p with (blen (encs before_mdat)) by (rewrite LB; assert (LM : blen (enc (f_moof f')) = blen (enc (f_moof f))) by apply moof_len; lia) end.
        change (c_note (bstr "mdat") (blen (encs before_mdat)) (st1 off)) with (mk_cstate off (new_map caps ts field l 0) (Some (blen (encs (f_pre f)))) (Some (blen (encs before_mdat)))).
        rewrite EP. exact MD. }
      assert (BOK : boxes_ok (fc_composite cls) any_payload (f_boxes f)).
      { unfold f_boxes. rewrite PO. apply boxes_ok_app. split; [apply leaves_ok; tauto|]. split; [exact moof_ok|].
        apply boxes_ok_app. split; [apply leaves_ok; tauto|]. split; [apply leaf_ok; exact OMD|apply leaves_ok; tauto]. }
      destruct (top_ran cls any_payload (f_boxes f) (enough (encs (f_boxes f))) [] [] [] cstate0 _ _ BOK TR) as (bx & EB).
      - unfold enough. lia.
      - cbn [app] in EB. change (blen []) with 0 in EB. rewrite EB. reflexivity. }
    split; [|split; [|split; [|split; [|split]]]].
    - exists time. split; [reflexivity|]. split; [exact FOK'|].
      destruct Hf as (t & _ & _ & NR & TRK & _ & G1 & G2 & G3 & _).
      split; [exact NR|]. split; [exact TRK|]. split; [exact Htime|].
      split; [rewrite MA', LA; exact G1|]. split; [rewrite ML; apply blen_nonneg|]. split.
      + rewrite MA', ML, FILE', !blen_app. assert (Q1 := blen_nonneg y). assert (Q2 := blen_nonneg (encs post)). lia.
      + unfold frag_samples. rewrite FILE', MA'. change (rn_first (f_run f')) with (rn_first (f_run f)). rewrite RF. reflexivity.
    - unfold same_around. repeat split.
    - reflexivity.
    - exact EP.
    - clear -N1 N2 SS. rewrite <- N1 in SS. revert SS. generalize l' N2. clear. intros l' N2. induction N2 as [|m m1 l0 l1 (T & D & F & CT) N2 IH]; intros SS; [constructor|].
      inversion SS as [|? ? ? ? [W _] SS']; subst. constructor; [|auto]. repeat split; auto.
    - exact one_each.
  Qed.
End Main.
