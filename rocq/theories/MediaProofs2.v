(** Whole segments: the filter's result as a list of boxes. *)
From Verif Require Import Base BaseProofs BytesModel BytesProofs Mp4Model Mp4Proofs BoxSpec EmsgModel TtmlModel TimeModel
  MediaModel MediaSpec MediaProofs.
From Coq Require Import ZifyBool ZifyNat.
Open Scope Z_scope.

Definition wf_boxes (l : list box) : Prop := boxes_ok containers any_payload l.

Lemma boxes_ok_app : forall c lk a b, boxes_ok c lk (a ++ b) <-> boxes_ok c lk a /\ boxes_ok c lk b.
Proof. induction a; intros; simpl; [tauto|]. rewrite IHa. tauto. Qed.
Lemma boxes_ok_Forall : forall c lk l, boxes_ok c lk l <-> Forall (box_ok c lk) l.
Proof.
  induction l; simpl; split; intros H; auto.
  - destruct H. constructor; auto. apply IHl; auto.
  - inversion H; subst. split; auto. apply IHl; auto.
Qed.
Lemma box_ok_any : forall c lk b, box_ok c lk b -> box_ok c any_payload b.
Proof.
  intros c lk. induction b as [t p|t ks IH] using box_ind2; intros H.
  - destruct H as (A & B & C & D). repeat split; auto.
  - apply box_ok_node in H. destruct H as (A & B & C & D). apply box_ok_node. repeat split; auto.
    apply boxes_ok_Forall. apply (proj1 (boxes_ok_Forall _ _ _)) in D.
    rewrite Forall_forall in *. auto.
Qed.

Lemma concat_map_len : forall (g : Z -> bytes) k l, (forall x, blen (g x) = k) ->
  blen (List.concat (map g l)) = k * Z.of_nat (List.length l).
Proof.
  induction l; intros H; cbn [map List.concat List.length]; [change (blen []) with 0; lia|].
  rewrite blen_app, IHl, H by auto. lia.
Qed.

Lemma doc_ok_both : forall r, Forall (box_ok containers any_payload) (rq_events r) ->
  (forall d b bs d', doc_change r d b bs d' -> box_ok containers leaf_ok b -> wf_boxes bs) /\
  (forall d l l' d', doc_changes r d l l' d' -> boxes_ok containers leaf_ok l -> wf_boxes l').
Proof.
  intros r HE. apply doc_ind; intros.
  all: unfold wf_boxes; cbn [boxes_ok];
    try match goal with H : box_ok _ _ (Leaf _ _) |- _ =>
          destruct H as (A & B & C & D);
          refine (conj (conj A (conj B (conj _ I))) _) || idtac end;
    try match goal with C : ?a < ?b |- ?a < ?b => exact C | |- True => exact I end.
  - apply boxes_ok_Forall. auto.
  - rewrite blen_app, blen_be32 in *. lia.
  - rewrite blen_cons, blen_app, blen_be32 in *. lia.
  - rewrite blen_cons, blen_app, blen_be64 in *. lia.
  - rewrite blen_cons, blen_app, blen_be64 in *. lia.
  - rewrite !blen_app in *. unfold s32 in *. rewrite blen_be32 in *. lia.
  - rewrite blen_app in C |- *. rewrite (concat_map_len be32 4) in C by (intros; reflexivity).
    rewrite (concat_map_len _ 4) by (intros; reflexivity). lia.
  - rewrite blen_app in C |- *. rewrite (concat_map_len be64 8) in C by (intros; reflexivity).
    rewrite (concat_map_len _ 8) by (intros; reflexivity). lia.
  - rewrite !blen_app in *. rewrite blen_be32 in *. lia.
  - split; [|exact I].
    apply box_ok_node in H0. destruct H0 as (A & B & C & D). apply box_ok_node.
    refine (conj A (conj B (conj _ _))); auto. apply H; auto.
  - destruct H1. apply boxes_ok_app; split; [apply H|apply H0]; auto.
Qed.
Lemma top_changes_ok : forall r d l l' d', Forall (box_ok containers any_payload) (rq_events r) ->
  top_changes r d l l' d' -> segment_ok l -> wf_boxes l'.
Proof.
  intros r d l l' d' HE T. destruct (doc_ok_both r HE) as [D1 _].
  induction T; intros OK; [exact I| |].
  - destruct OK. apply boxes_ok_app. split; [eapply D1; eauto|apply IHT; auto].
  - destruct OK. split; [eapply box_ok_any; eauto|apply IHT; auto].
Qed.

(** ** finalize *)
Lemma top_types : forall p l st g st1, segment_ok l -> tr_tops (m_class p) (lf p) l st = Ok (g, st1) ->
  0 <= ms_size_change st ->
  Forall (fun x => (fst x = bstr "moof" /\ exists m, snd x = [m] /\ moof m /\ wf_boxes [m]) \/
                   (fst x <> bstr "moof" /\ Forall (fun b => ~ moof b) (snd x))) g.
Proof.
  intros p. induction l as [|b l IH]; intros st g st1 OK E HS; cbn [tr_tops] in E.
  - apply ok_pair in E. destruct E as [<- <-]. constructor.
  - destruct OK as [O1 O2].
    bind_inv E. destruct a as [a sa]. bind_inv E. destruct a0 as [c sc].
    apply ok_pair in E. destruct E as [<- <-].
    assert (HS2 : 0 <= ms_size_change sa).
    { unfold tr_top in E0. destruct (bytes_in (btype b) (fc_top (m_class p))).
      - eapply tr_box_doc; eauto.
      - apply ok_pair in E0. destruct E0 as [_ <-]. auto. }
    constructor; [|eapply IH; eauto]. cbn [fst snd].
    unfold tr_top in E0. destruct (bytes_in (btype b) (fc_top (m_class p))) eqn:BI.
    + destruct b as [t pl|t ks].
      * right. cbn [btype]. destruct O1 as (A & B & C & D). split.
        { intros ->. apply B. simpl; auto. }
        cbn [tr_box] in E0. unfold lf in E0. bind_inv E0. destruct a0 as [o s2].
        apply ok_pair in E0. destruct E0 as [<- <-]. unfold lf_boxes.
        assert (NM : t <> bstr "moof") by (intros ->; apply B; simpl; auto).
        destruct (bytes_eqb t (bstr "sidx")); [constructor|].
        destruct (bytes_eqb t (bstr "styp")).
        { constructor; [exact NM|]. unfold events.
          destruct (create_scte35box _ _ _) as [[|z b]|]; repeat constructor. intros X; discriminate X. }
        repeat constructor. exact NM.
      * assert (D := tr_box_doc _ _ _ _ _ HS O1 E0). destruct D as (D & _).
        destruct (doc_ok_both (req_of p (ms_ttml_size st)) (event_ok p)) as [DO _].
        assert (W := DO _ _ _ _ D O1).
        rewrite tr_node in E0. bind_inv E0. destruct a0 as [ks1 s2].
        destruct (8 + blen (encs ks1) <? 4294967296); [|discriminate].
        apply ok_pair in E0. destruct E0 as [<- <-]. cbn [btype].
        destruct (bytes_eqb t (bstr "moof")) eqn:EM.
        { apply bytes_eqb_eq in EM. left. split; auto. exists (Node t ks1). auto. }
        { right. assert (NM : t <> bstr "moof") by (intros ->; rewrite bytes_eqb_refl in EM; discriminate).
          split; auto. }
    + apply ok_pair in E0. destruct E0 as [<- <-]. right.
      assert (NM : btype b <> bstr "moof").
      { intros X. rewrite X in BI. change (bytes_in (bstr "moof") (fc_top (m_class p))) with true in BI.
        discriminate. }
      split; auto.
Qed.

(** byte sizes of all moof and mdat groups *)
Definition frag_size (g : list (bytes * list box)) : Z :=
  fold_right (fun x s => (if bytes_in (fst x) [bstr "moof"; bstr "mdat"] then blen (encs (snd x)) else 0) + s) 0 g.

Lemma walk_spec : forall g pos ms sz,
  Forall (fun x => (fst x = bstr "moof" /\ exists m, snd x = [m] /\ moof m /\ wf_boxes [m]) \/
                   (fst x <> bstr "moof" /\ Forall (fun b => ~ moof b) (snd x))) g ->
  exists ms', walk_boxes (group_sizes g) pos ms sz = (ms', sz + frag_size g) /\
  ((exists a m b, flat_map snd g = a ++ m :: b /\ moof m /\ Forall (fun k => ~ moof k) b /\ ms' = pos + blen (encs a)) \/
   (Forall (fun k => ~ moof k) (flat_map snd g) /\ ms' = ms)).
Proof.
  induction g as [|[t bs] g IH]; intros pos ms sz F.
  - exists ms. cbn. split; [f_equal; lia|]. right. split; auto.
  - inversion F as [|x y H1 H2]; subst. cbn [fst snd] in *.
    cbn [flat_map snd group_sizes frag_size fold_right fst].
    fold (frag_size g).
    destruct H1 as [(-> & m & -> & M & W)|(NM & F1)].
    + change (bytes_in (bstr "moof") [bstr "moof"; bstr "mdat"]) with true. cbv iota.
      assert (P : 0 < blen (encs [m])).
      { rewrite encs_one. destruct W as [W _]. rewrite blen_enc by (eapply box_ok_type; eauto).
        assert (X := blen_nonneg (body m)). lia. }
      destruct (Z.ltb_spec 0 (blen (encs [m]))); [|lia]. cbn [walk_boxes].
      change (bytes_eqb (bstr "moof") (bstr "moof")) with true. cbv iota.
      destruct (IH (pos + blen (encs [m])) pos (sz + blen (encs [m])) H2) as (ms' & E & K).
      exists ms'. split; [rewrite E; f_equal; lia|]. left.
      destruct K as [(a & m2 & b & EG & M2 & F2 & ->)|(F2 & ->)].
      * exists (m :: a), m2, b. rewrite EG. repeat split; auto.
        change (encs (m :: a)) with (enc m ++ encs a). rewrite blen_app, encs_one. lia.
      * exists [], m, (flat_map snd g). repeat split; auto. cbn. lia.
    + assert (EM : bytes_eqb t (bstr "moof") = false).
      { destruct (bytes_eqb t (bstr "moof")) eqn:E; auto. apply bytes_eqb_eq in E. contradiction. }
      set (s1 := if bytes_in t [bstr "moof"; bstr "mdat"] then blen (encs bs) else 0).
      assert (X : walk_boxes (if 0 <? blen (encs bs) then (blen (encs bs), t) :: group_sizes g else group_sizes g) pos ms sz
              = walk_boxes (group_sizes g) (pos + blen (encs bs)) ms (sz + s1)).
      { unfold s1.
        assert (NN := blen_nonneg (encs bs)).
        destruct (Z.ltb_spec 0 (blen (encs bs))).
        - cbn [walk_boxes]. rewrite EM. destruct (bytes_eqb t (bstr "mdat")) eqn:ED.
          + unfold bytes_in. cbn [existsb]. rewrite EM, ED. cbn [orb]. f_equal; lia.
          + unfold bytes_in. cbn [existsb]. rewrite EM, ED. cbn [orb]. f_equal; lia.
        - replace (blen (encs bs)) with 0 by lia.
          destruct (bytes_in t [bstr "moof"; bstr "mdat"]); f_equal; lia. }
      rewrite X. destruct (IH (pos + blen (encs bs)) ms (sz + s1) H2) as (ms' & E & K).
      exists ms'. split; [rewrite E; f_equal; lia|].
      destruct K as [(a & m2 & b & EG & M2 & F2 & ->)|(F2 & ->)].
      * left. exists (bs ++ a), m2, b. rewrite EG. repeat split; auto.
        { rewrite app_assoc. reflexivity. }
        { rewrite encs_app, blen_app. lia. }
      * right. split; auto. apply Forall_app. auto.
Qed.

Definition sidx_payload (ts ept size dur : Z) : bytes :=
  [1; 0; 0; 0] ++ be32 1 ++ be32 ts ++ be64 ept ++ be64 0 ++ be32 1 ++ be32 size ++ be32 dur ++ [144; 0; 0; 0].
Lemma create_sidx_enc : forall p st n b, create_sidx p st n = Ok b ->
  exists ts ept dur, mp_timescale p = Some ts /\ ms_tfdt st = Some ept /\ ms_duration st = Some dur /\
    0 <= ts < 4294967296 /\ 0 <= ept < 18446744073709551616 /\ 0 <= n < 4294967296 /\ 0 <= dur < 4294967296 /\
    b = enc (Leaf (bstr "sidx") (sidx_payload ts ept n dur)).
Proof.
  intros p st n b H. unfold create_sidx in H.
  destruct (mp_timescale p) as [ts|]; [|discriminate].
  destruct (ms_tfdt st) as [ept|]; [|cbn [pack_opt] in H; bind_inv H; bind_inv H; discriminate].
  destruct (ms_duration st) as [dur|]; cbn [pack_opt] in H.
  2:{ bind_inv H; bind_inv H; bind_inv H; bind_inv H; bind_inv H; discriminate. }
  bind_inv H. apply p32_inv in E. destruct E as [_ ->].
  bind_inv H. apply p32_inv in E. destruct E as [? ->].
  bind_inv H. apply p64_inv in E. destruct E as [? ->].
  bind_inv H. apply p64_inv in E. destruct E as [_ ->].
  bind_inv H. apply p32_inv in E. destruct E as [? ->].
  bind_inv H. apply p32_inv in E. destruct E as [? ->].
  exists ts, ept, dur. repeat split; auto; try lia.
  rewrite !be32_eq, !be64_eq in H. rewrite enc_leaf. unfold sidx_payload at 2. rewrite <- !app_assoc.
  change (8 + blen (sidx_payload ts ept n dur)) with 52. change (be32 1) with [0; 0; 0; 1]. congruence.
Qed.

Lemma print_02d_ascii : forall n, ascii_text (print_02d n) = true.
Proof.
  intros. unfold print_02d. destruct ((0 <=? n) && (n <? 10)); [|apply print_ascii].
  cbn [ascii_text]. rewrite print_ascii. reflexivity.
Qed.
Lemma timestamp_ascii : forall t, ascii_text (make_timestamp_Q t) = true.
Proof.
  intros. unfold make_timestamp_Q, make_timestamp, strftime_utc.
  rewrite !ascii_text_app, !print_02d_ascii, print_ascii. reflexivity.
Qed.
Lemma em_data_mk : forall a b c d e f g, em_data (mk_emsg a b c d e f g) = g.
Proof. reflexivity. Qed.
Lemma create_emsg_eq : create_emsg = fun p => emsg_box (last_event p).
Proof. reflexivity. Qed.
Lemma create_emsg_enc : forall p b, create_emsg p = Ok b ->
  b = enc (Leaf (bstr "emsg") (emsg_payload (last_event p))) /\
  8 + blen (emsg_payload (last_event p)) < 4294967296.
Proof.
  intros p b H. rewrite create_emsg_eq in H. cbv beta in H.
  assert (A1 : ascii_text (em_scheme (last_event p)) = true) by reflexivity.
  assert (A2 : ascii_text (em_value (last_event p)) = true) by reflexivity.
  assert (A3 : ascii_text (em_data (last_event p)) = true)
    by (unfold last_event; rewrite em_data_mk; apply timestamp_ascii).
  revert H A1 A2 A3. generalize (last_event p). intros e H A1 A2 A3.
  split; [eapply emsg_box_enc; eauto|eapply emsg_box_size; eauto].
Qed.

Lemma insert_bytes : forall a x b, btake (blen a) (a ++ b) ++ x ++ bdrop (blen a) (a ++ b) = a ++ x ++ b.
Proof. intros. rewrite btake_len, bdrop_len. reflexivity. Qed.

(** Boxes that [finalize] adds before the last moof. *)
Definition extras (p : mparams) (st : mstate) (size : Z) : list box :=
  (if mp_emsg_last p then [Leaf (bstr "emsg") (emsg_payload (last_event p))] else []) ++
  (if mp_insert_sidx p then
     match mp_timescale p, ms_tfdt st, ms_duration st with
     | Some ts, Some ept, Some dur => [Leaf (bstr "sidx") (sidx_payload ts ept size dur)]
     | _, _, _ => []
     end else []).

Lemma finalize_boxes : forall p g st out,
  Forall (fun x => (fst x = bstr "moof" /\ exists m, snd x = [m] /\ moof m /\ wf_boxes [m]) \/
                   (fst x <> bstr "moof" /\ Forall (fun b => ~ moof b) (snd x))) g ->
  m_finalize p (groups_bytes g) (group_sizes g) st = Ok out ->
  exists l2, inserted (extras p st (frag_size g)) (flat_map snd g) l2 /\ out = encs l2 /\
    wf_boxes (extras p st (frag_size g)) /\
    (mp_insert_sidx p = true -> exists ts ept dur,
       mp_timescale p = Some ts /\ ms_tfdt st = Some ept /\ ms_duration st = Some dur /\
       0 <= ts < 4294967296 /\ 0 <= ept < 18446744073709551616 /\
       0 <= frag_size g < 4294967296 /\ 0 <= dur < 4294967296).
Proof.
  intros p g st out F H. unfold m_finalize in H.
  destruct (walk_spec g 0 0 0 F) as (ms' & W & K). rewrite W in H. change (0 + frag_size g) with (frag_size g) in H.
  set (n := frag_size g) in *. unfold groups_bytes in H. set (l := flat_map snd g) in *.
  assert (S : exists a b, l = a ++ b /\ ms' = blen (encs a) /\
              forall x, inserted x l (a ++ x ++ b)).
  { destruct K as [(a & m & b & E & M & FB & ->)|(FB & ->)].
    - exists a, (m :: b). split; [exact E|]. split; [lia|]. intros x. left. exists a, m, b. auto.
    - exists [], l. split; [reflexivity|]. split; [reflexivity|]. intros x. right. auto. }
  destruct S as (a & b & EL & -> & INS). rewrite EL, encs_app in H.
  bind_inv H.
  assert (X : exists sx, a0 = encs a ++ encs sx ++ encs b /\ wf_boxes sx /\
     sx = (if mp_insert_sidx p then
     match mp_timescale p, ms_tfdt st, ms_duration st with
     | Some ts, Some ept, Some dur => [Leaf (bstr "sidx") (sidx_payload ts ept n dur)]
     | _, _, _ => []
     end else []) /\
     (mp_insert_sidx p = true -> exists ts ept dur,
       mp_timescale p = Some ts /\ ms_tfdt st = Some ept /\ ms_duration st = Some dur /\
       0 <= ts < 4294967296 /\ 0 <= ept < 18446744073709551616 /\
       0 <= n < 4294967296 /\ 0 <= dur < 4294967296)).
  { destruct (mp_insert_sidx p).
    - bind_inv E. destruct (create_sidx_enc _ _ _ _ E0) as (ts & ept & dur & E1 & E2 & E3 & B1 & B2 & B3 & B4 & ->).
      rewrite E1, E2, E3. rewrite insert_bytes in E. eexists. split; [|split; [|split; [reflexivity|]]].
      + rewrite encs_one. congruence.
      + split; [|exact I]. split; [reflexivity|]. split; [intros [X|[X|[]]]; discriminate X|].
        split; [|exact I]. reflexivity.
      + intros _. exists ts, ept, dur. auto 10.
    - exists []. split; [cbn [encs app]; congruence|]. split; [exact I|]. split; [reflexivity|discriminate]. }
  destruct X as (sx & -> & W1 & E1 & R). unfold extras. rewrite <- E1.
  destruct (mp_emsg_last p).
  - bind_inv H. apply create_emsg_enc in E0. destruct E0 as [-> SZ]. rewrite insert_bytes in H.
    eexists. split; [apply INS|]. split; [|split; [|exact R]].
    + rewrite !encs_app, encs_one, <- !app_assoc. congruence.
    + apply boxes_ok_app. split; auto. split; [|exact I].
      split; [reflexivity|]. split; [intros [X|[X|[]]]; discriminate X|]. split; [exact SZ|exact I].
  - eexists. split; [apply INS|]. split; [|split; [exact W1|exact R]].
    rewrite !encs_app. cbn [app]. apply (f_equal (fun r => match r with Ok x => x | Err _ => nil end)) in H. cbn beta iota in H. rewrite <- H. reflexivity.
Qed.
Lemma inserted_ok : forall x l l', wf_boxes x -> wf_boxes l -> inserted x l l' -> wf_boxes l'.
Proof.
  intros x l l' X L [(a & m & b & -> & _ & _ & ->)|(_ & ->)]; unfold wf_boxes in *;
    rewrite ?boxes_ok_app in *; cbn [boxes_ok] in *; tauto.
Qed.

(** ** The preparatory pass over subtitle segments *)
Definition retime (p : mparams) (b : box) : box :=
  match b with
  | Leaf t pl => if bytes_eqb t (bstr "mdat")
                 then Leaf t (adjust_ttml_content pl (mp_offset p) (match mp_seg_nr p with Some n => n | None => 0 end))
                 else b
  | Node _ _ => b
  end.
Fixpoint mdat_size (l : list box) (sz : option Z) : option Z :=
  match l with
  | [] => sz
  | Leaf t pl :: r => mdat_size r (if bytes_eqb t (bstr "mdat") then Some (blen pl) else sz)
  | Node _ _ :: r => mdat_size r sz
  end.

Lemma mdat_loop_tree : forall p l fuel pre output sz o s,
  segment_ok l -> (List.length (encs l) < fuel)%nat ->
  mdat_loop p fuel (pre ++ encs l) (blen pre) output sz = Ok (o, s) ->
  o = output ++ encs (map (retime p) l) /\ s = mdat_size (map (retime p) l) sz /\
  segment_ok (map (retime p) l).
Proof.
  intros p. induction l as [|k l IH]; intros fuel pre output sz o s OK HL H.
  - destruct fuel; [lia|]. cbn [mdat_loop encs map mdat_size] in *. rewrite app_nil_r, Z.ltb_irrefl in H.
    apply ok_pair in H. destruct H as [<- <-]. rewrite app_nil_r. repeat split; auto.
  - destruct fuel as [|f]; [lia|]. cbn [encs] in *. destruct OK as [HK1 HK2].
    assert (T := box_ok_type _ _ _ HK1). assert (Z1 := blen_enc k T).
    assert (Q1 := blen_nonneg (body k)).
    cbn [mdat_loop] in H.
    assert (B : blen pre <? blen (pre ++ enc k ++ encs l) = true).
    { apply Z.ltb_lt. rewrite !blen_app. assert (Q2 := blen_nonneg (encs l)). lia. }
    rewrite B in H.
    assert (C1 : bslice (blen pre) (blen pre + 4) (pre ++ enc k ++ encs l) = be32 (blen (enc k))).
    { rewrite Z1, enc_eq. rewrite <- !app_assoc. apply bslice_len'; reflexivity. }
    assert (C2 : bslice (blen pre + 4) (blen pre + 8) (pre ++ enc k ++ encs l) = btype k).
    { rewrite enc_eq, <- !app_assoc. rewrite app_assoc.
      apply bslice_len'; rewrite ?blen_app, ?blen_be32; lia. }
    rewrite C1, C2, u32_ok in H by reflexivity. cbn [bind] in H.
    rewrite be32_val in H by (assert (S := box_ok_size _ _ _ HK1); lia).
    rewrite bslice_mid in H by reflexivity.
    replace (pre ++ enc k ++ encs l) with ((pre ++ enc k) ++ encs l) in H by (symmetry; apply app_assoc).
    replace (blen pre + blen (enc k)) with (blen (pre ++ enc k)) in H by apply blen_app.
    rewrite app_length in HL. unfold blen in Z1.
    assert (HL2 : (List.length (encs l) < f)%nat) by (unfold blen in Q1; lia).
    cbn [map]. destruct (bytes_eqb (btype k) (bstr "mdat")) eqn:EM.
    + apply bytes_eqb_eq in EM. destruct k as [t pl|t ks]; cbn [btype] in EM; subst t.
      2:{ exfalso. apply box_ok_node in HK1. destruct HK1 as (_ & [X|[X|[]]] & _); discriminate X. }
      bind_inv H. destruct a as [o1 n1]. unfold update_ttml_mdat in E.
      destruct (mp_seg_nr p) as [nr|] eqn:EN; [|discriminate]. cbn [bind] in E.
      rewrite drop8_leaf in E by reflexivity. bind_inv E. apply p32_inv in E0. destruct E0 as [B0 ->].
      apply ok_pair in E. destruct E as [EO EN1]. rewrite be32_eq in EO.
      apply IH in H; auto. destruct H as (H1 & H2 & H3).
      cbn [retime]. change (bytes_eqb (bstr "mdat") (bstr "mdat")) with true. cbv iota. rewrite EN.
      split; [|split].
      * rewrite H1. cbn [encs]. rewrite enc_leaf, <- !app_assoc. rewrite <- EO.
        rewrite (Z.add_comm _ 8), <- !app_assoc. reflexivity.
      * rewrite H2. cbn [mdat_size]. rewrite <- EN1. reflexivity.
      * cbn [segment_ok]. split; auto. destruct HK1 as (A1 & A2 & A3 & A4).
        split; [exact A1|]. split; [exact A2|]. split; [lia|]. split.
        { apply L_other. intros X. cbn [In] in X. decompose [or] X; try contradiction; discriminate. }
        { intros X. exfalso. cbn [special In] in X. decompose [or] X; try contradiction; discriminate. }
    + apply IH in H; auto. destruct H as (H1 & H2 & H3).
      assert (RK : retime p k = k).
      { destruct k as [t pl|t ks]; [|reflexivity]. cbn [btype] in EM. cbn [retime]. rewrite EM. reflexivity. }
      rewrite RK. split; [|split].
      * rewrite H1. cbn [encs]. rewrite <- app_assoc. reflexivity.
      * rewrite H2. destruct k as [t pl|t ks]; [|reflexivity]. cbn [btype] in EM. cbn [mdat_size]. rewrite EM. reflexivity.
      * split; auto.
Qed.

(** ** The whole filter *)
Definition prepared (p : mparams) (l : list box) : list box :=
  if mp_is_ttml p then map (retime p) l else l.
Definition prepared_size (p : mparams) (l : list box) : option Z :=
  if mp_is_ttml p then mdat_size (map (retime p) l) None else None.

Definition run (p : mparams) (l : list box) : result (list (bytes * list box) * mstate) :=
  tr_tops (m_class p) (lf p) (prepared p l) (m_init p (prepared_size p l)).

Lemma media_filter_run : forall p l out st, segment_ok l -> media_filter p (encs l) = Ok (out, st) ->
  segment_ok (prepared p l) /\
  exists g, run p l = Ok (g, st) /\ m_finalize p (groups_bytes g) (group_sizes g) st = Ok out.
Proof.
  intros p l out st OK H. unfold media_filter in H. unfold run, prepared, prepared_size.
  bind_inv H. destruct a as [data ttml].
  assert (D : data = encs (prepared p l) /\ ttml = prepared_size p l /\ segment_ok (prepared p l)).
  { unfold prepared, prepared_size. destruct (mp_is_ttml p).
    - apply (mdat_loop_tree p l (enough (encs l)) [] [] None) in E; auto. unfold enough. lia.
    - apply ok_pair in E. destruct E as [<- <-]. auto. }
  unfold prepared, prepared_size in D. destruct D as (-> & -> & OK2). split; auto.
  rewrite (mp4_filter_tree (m_class p) leaf_ok (lf p)) with (inv := fun st => 0 <= ms_size_change st) in H; auto.
  - bind_inv H. destruct a as [g st1]. bind_inv H. apply ok_pair in H. destruct H as [<- <-]. eauto.
  - intros. eapply lf_doc; eauto.
  - intros. apply lf_leaf; auto.
  - cbn. lia.
Qed.

Lemma media_filter_boxes : forall p l out st, segment_ok l -> media_filter p (encs l) = Ok (out, st) ->
  exists l1 l2 d n, top_changes (req_of p (prepared_size p l)) 0 (prepared p l) l1 d /\
    wf_boxes (extras p st n) /\ inserted (extras p st n) l1 l2 /\ out = encs l2 /\ wf_boxes l2.
Proof.
  intros p l out st OK H. apply media_filter_run in H; auto. destruct H as (OK2 & g & R & F).
  unfold run in R.
  assert (HS : 0 <= ms_size_change (m_init p (prepared_size p l))) by (cbn; lia).
  assert (TY := top_types _ _ _ _ _ OK2 R HS).
  destruct (tr_tops_doc _ _ _ _ _ HS OK2 R) as (TC & _ & _).
  destruct (finalize_boxes _ _ _ _ TY F) as (l2 & INS & -> & WX & _).
  exists (flat_map snd g), l2, (ms_size_change st), (frag_size g).
  split; [exact TC|]. split; auto. split; auto. split; auto.
  eapply inserted_ok; [exact WX| |exact INS]. eapply top_changes_ok; eauto. apply event_ok.
Qed.
