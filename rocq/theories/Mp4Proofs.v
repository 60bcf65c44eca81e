(** The generic filter on well-formed box sequences is a transformation of box
    trees; termination. *)
From Verif Require Import Base BaseProofs BytesModel BytesProofs Mp4Model BoxSpec.
From Coq Require Import ZifyBool ZifyNat.
Open Scope Z_scope.

Lemma be32_eq : forall z, be_bytes 4 z = be32 z.
Proof.
  intros. unfold be32. cbn [be_bytes app].
  rewrite !Z.div_div by lia. reflexivity.
Qed.
Lemma be64_eq : forall z, be_bytes 8 z = be64 z.
Proof.
  intros. unfold be64.
  change (be_bytes 8 z) with (be_bytes 4 (z / 256 / 256 / 256 / 256) ++
    ([z / 256 / 256 / 256 mod 256] ++ [z / 256 / 256 mod 256] ++ [z / 256 mod 256] ++ [z mod 256])).
  rewrite be32_eq, !Z.div_div by lia. f_equal.
  change (256 * 256 * 256) with 16777216. change (256 * 256) with 65536.
  unfold be32. cbn [app].
  assert (E : z = 4294967296 * (z / 4294967296) + z mod 4294967296) by (apply Z.div_mod; lia).
  assert (X : forall k m, 0 < k -> k * m * 256 = 4294967296 ->
     z / k mod 256 = (z mod 4294967296) / k mod 256).
  { intros k m Hk Hm. rewrite E at 1.
    replace (4294967296 * (z / 4294967296)) with ((m * 256 * (z / 4294967296)) * k) by (rewrite <- Hm; ring).
    rewrite Z.div_add_l by lia.
    replace (m * 256 * (z / 4294967296)) with ((m * (z / 4294967296)) * 256) by lia.
    rewrite Z.add_comm, Z.mod_add by lia. reflexivity. }
  f_equal; [apply (X 16777216 1); lia|]. f_equal; [apply (X 65536 256); lia|].
  f_equal; [apply (X 256 65536); lia|]. f_equal.
  assert (Y := X 1 16777216). rewrite !Z.div_1_r in Y. apply Y; lia.
Qed.
Lemma blen_be32 : forall z, blen (be32 z) = 4.
Proof. reflexivity. Qed.
Lemma blen_be64 : forall z, blen (be64 z) = 8.
Proof. reflexivity. Qed.
Lemma be32_val : forall z, 0 <= z < 4294967296 -> be_val (be32 z) = z.
Proof. intros. rewrite <- be32_eq. apply be4_val; auto. Qed.
Lemma be64_val : forall z, 0 <= z < 18446744073709551616 -> be_val (be64 z) = z.
Proof. intros. rewrite <- be64_eq. apply be8_val; auto. Qed.

(** ** Trees *)
Section BoxInd.
  Variable P : box -> Prop.
  Hypothesis HL : forall t p, P (Leaf t p).
  Hypothesis HN : forall t ks, Forall P ks -> P (Node t ks).
  Fixpoint box_ind2 (b : box) : P b :=
    match b with
    | Leaf t p => HL t p
    | Node t ks => HN t ks ((fix go l : Forall P l :=
        match l with
        | [] => Forall_nil P
        | k :: r => @Forall_cons _ P k r (box_ind2 k) (go r)
        end) ks)
    end.
End BoxInd.

Lemma enc_node : forall t ks, enc (Node t ks) = be32 (8 + blen (encs ks)) ++ t ++ encs ks.
Proof.
  intros. cbn [enc].
  assert (E : (fix go l := match l with [] => [] | k :: r => enc k ++ go r end) ks = encs ks)
    by (induction ks; simpl; congruence).
  rewrite E. reflexivity.
Qed.
Lemma encs_app : forall a b, encs (a ++ b) = encs a ++ encs b.
Proof. induction a; intros; simpl; auto. rewrite IHa, app_assoc. reflexivity. Qed.
Lemma encs_one : forall b, encs [b] = enc b.
Proof. intros. simpl. apply app_nil_r. Qed.

Lemma box_ok_node : forall c lk t ks, box_ok c lk (Node t ks) <->
  blen t = 4 /\ In t c /\ 8 + blen (encs ks) < 4294967296 /\ boxes_ok c lk ks.
Proof.
  intros. cbn [box_ok]. rewrite enc_node.
  assert (E : (fix go l := match l with [] => True | k :: r => box_ok c lk k /\ go r end) ks
              <-> boxes_ok c lk ks) by (induction ks; simpl; tauto).
  rewrite E. rewrite !blen_app, blen_be32.
  split; intros (A & B & C & D); repeat split; auto; lia.
Qed.
Lemma box_ok_type : forall c lk b, box_ok c lk b -> blen (btype b) = 4.
Proof. destruct b; intros H; [apply H|]. apply box_ok_node in H. apply H. Qed.

(** content of a box after the 8-byte header *)
Definition body (b : box) : bytes := match b with Leaf _ p => p | Node _ ks => encs ks end.
Lemma enc_eq : forall b, enc b = be32 (8 + blen (body b)) ++ btype b ++ body b.
Proof. destruct b; [reflexivity|]. apply enc_node. Qed.
Lemma blen_enc : forall b, blen (btype b) = 4 -> blen (enc b) = 8 + blen (body b).
Proof. intros. rewrite enc_eq, !blen_app, blen_be32, H. lia. Qed.
Lemma box_ok_size : forall c lk b, box_ok c lk b -> blen (enc b) < 4294967296.
Proof.
  intros. rewrite blen_enc by (eapply box_ok_type; eauto). destruct b.
  - simpl. apply H.
  - apply box_ok_node in H. simpl. tauto.
Qed.

Lemma header_take : forall b post, blen (btype b) = 4 ->
  btake 8 (enc b ++ post) = be32 (8 + blen (body b)) ++ btype b.
Proof.
  intros. rewrite enc_eq, <- !app_assoc.
  change 8 with (4 + 4) at 1. rewrite btake_app_r by (rewrite blen_be32; lia). f_equal.
  rewrite blen_be32. replace (4 + 4 - 4) with (blen (btype b)) by lia.
  apply btake_len.
Qed.

Lemma check_box_enc : forall c lk b post, box_ok c lk b ->
  check_box (btake 8 (enc b ++ post)) = Ok (blen (enc b), btype b).
Proof.
  intros c lk b post H. assert (T := box_ok_type _ _ _ H). assert (S := box_ok_size _ _ _ H).
  rewrite header_take by auto. rewrite (blen_enc b) in * by auto. unfold check_box.
  rewrite btake_app_l by (rewrite blen_be32; lia). rewrite btake_all by (rewrite blen_be32; lia).
  rewrite u32_ok by apply blen_be32. cbn [bind]. rewrite be32_val.
  - f_equal. f_equal. unfold bslice.
    rewrite bdrop_app_r by (rewrite blen_be32; lia). rewrite blen_be32. change (4 - 4) with 0.
    rewrite bdrop_0. apply btake_all. lia.
  - assert (K := blen_nonneg (body b)). lia.
Qed.

(** ** The filter as a tree transformation *)
Section Tree.
  Context {S : Type}.
  Variable cls : fclass S.
  Variable lk : bytes -> bytes -> Prop.
  Variable lf : bytes -> bytes -> S -> result (list box * S).

  Fixpoint tr_box (b : box) (st : S) : result (list box * S) :=
    match b with
    | Leaf t p => lf t p st
    | Node t ks =>
        let* (ks1, st1) :=
          (fix go (l : list box) (st : S) : result (list box * S) :=
             match l with
             | [] => Ok ([], st)
             | k :: r => let* (a, sa) := tr_box k st in
                         let* (b, sb) := go r sa in Ok (a ++ b, sb)
             end) ks st in
        if 8 + blen (encs ks1) <? 4294967296 then Ok ([Node t ks1], st1)
        else Err "struct.error"
    end.
  Fixpoint tr_boxes (l : list box) (st : S) : result (list box * S) :=
    match l with
    | [] => Ok ([], st)
    | k :: r => let* (a, sa) := tr_box k st in
                let* (b, sb) := tr_boxes r sa in Ok (a ++ b, sb)
    end.
  Lemma tr_node : forall t ks st, tr_box (Node t ks) st =
    let* (ks1, st1) := tr_boxes ks st in
    if 8 + blen (encs ks1) <? 4294967296 then Ok ([Node t ks1], st1) else Err "struct.error".
  Proof.
    intros. cbn [tr_box]. f_equal.
  Qed.

  Definition enc_res (r : result (list box * S)) : result (bytes * S) :=
    let* (bs, st) := r in Ok (encs bs, st).

  Hypothesis Hnote : forall t z st, fc_note cls t z st = st.
  Variable inv : S -> Prop.
  Hypothesis Hinv : forall t p st bs st1, inv st -> box_ok (fc_composite cls) lk (Leaf t p) ->
    lf t p st = Ok (bs, st1) -> inv st1.
  Hypothesis Hleaf : forall t p st, inv st -> box_ok (fc_composite cls) lk (Leaf t p) ->
    process_leaf cls t (enc (Leaf t p)) st = enc_res (lf t p st).

  Lemma tr_boxes_inv_ : forall ks,
    Forall (fun b => forall st bs st1, inv st -> box_ok (fc_composite cls) lk b ->
                     tr_box b st = Ok (bs, st1) -> inv st1) ks ->
    forall st bs st1, inv st -> boxes_ok (fc_composite cls) lk ks ->
    tr_boxes ks st = Ok (bs, st1) -> inv st1.
  Proof.
    induction 1; intros st bs st1 I OK E; cbn [tr_boxes] in E; [congruence|].
    destruct OK as [O1 O2].
    destruct (tr_box x st) as [[a sa]|] eqn:E1; cbn [bind] in E; [|discriminate].
    destruct (tr_boxes l sa) as [[b sb]|] eqn:E2; cbn [bind] in E; [|discriminate].
    injection E as _ <-. eapply IHForall; [| |exact E2]; auto. eapply H; [| |exact E1]; auto.
  Qed.
  Lemma tr_box_inv : forall b st bs st1, inv st -> box_ok (fc_composite cls) lk b ->
    tr_box b st = Ok (bs, st1) -> inv st1.
  Proof.
    induction b as [t p|t ks IH] using box_ind2; intros st bs st1 I OK E.
    - eapply Hinv; eauto.
    - rewrite tr_node in E. apply box_ok_node in OK. destruct OK as (_ & _ & _ & OK).
      destruct (tr_boxes ks st) as [[a sa]|] eqn:E1; cbn [bind] in E; [|discriminate].
      destruct (8 + blen (encs a) <? 4294967296); [|discriminate]. injection E as _ <-.
      eapply tr_boxes_inv_; [| | |exact E1]; auto.
  Qed.

  Lemma child_loop_tree : forall (rec : bytes -> bytes -> Z -> S -> result (bytes * S)) ks
      fuel pre file_pos output st,
    Forall (fun b => box_ok (fc_composite cls) lk b ->
                     forall fp st, inv st -> rec (btype b) (enc b) fp st = enc_res (tr_box b st)) ks ->
    inv st -> boxes_ok (fc_composite cls) lk ks ->
    (List.length (encs ks) < fuel)%nat ->
    child_loop rec fuel (pre ++ encs ks) file_pos (blen pre) output st =
    let* (bs, st1) := enc_res (tr_boxes ks st) in Ok (output ++ bs, st1).
  Proof.
    intros rec ks. induction ks as [|k ks IH]; intros fuel pre file_pos output st HF HI HK HL.
    - destruct fuel; [lia|]. cbn [child_loop encs]. rewrite app_nil_r.
      rewrite Z.ltb_irrefl. cbn. rewrite app_nil_r. reflexivity.
    - destruct fuel; [lia|]. cbn [encs] in *. destruct HK as [HK1 HK2]. inversion HF; subst.
      assert (T := box_ok_type _ _ _ HK1). assert (Z1 := blen_enc k T).
      cbn [child_loop].
      assert (B : blen pre <? blen (pre ++ enc k ++ encs ks) = true).
      { apply Z.ltb_lt. rewrite !blen_app. assert (Q1 := blen_nonneg (body k)).
        assert (Q2 := blen_nonneg (encs ks)). lia. }
      rewrite B.
      assert (C : bslice (blen pre) (blen pre + 8) (pre ++ enc k ++ encs ks)
                  = btake 8 (enc k ++ encs ks)).
      { unfold bslice. rewrite bdrop_len. f_equal. lia. }
      rewrite C, (check_box_enc _ _ _ _ HK1). cbn [bind].
      rewrite bslice_mid by reflexivity. rewrite H1 by auto.
      cbn [tr_boxes]. destruct (tr_box k st) as [[a sa]|e] eqn:EK; [|reflexivity].
      cbn [bind enc_res].
      replace (pre ++ enc k ++ encs ks) with ((pre ++ enc k) ++ encs ks) by (symmetry; apply app_assoc).
      replace (blen pre + blen (enc k)) with (blen (pre ++ enc k)) by apply blen_app.
      rewrite IH; auto.
      2:{ eapply tr_box_inv; [exact HI|exact HK1|exact EK]. }
      + unfold enc_res. destruct (tr_boxes ks sa) as [[b sb]|e]; [|reflexivity].
        cbn [bind]. rewrite encs_app, app_assoc. reflexivity.
      + rewrite app_length in HL. unfold blen in Z1. lia.
  Qed.

  Lemma filter_box_tree : forall b, box_ok (fc_composite cls) lk b ->
    forall fuel fp st, inv st -> (List.length (enc b) < fuel)%nat ->
    filter_box cls fuel (btype b) (enc b) fp st = enc_res (tr_box b st).
  Proof.
    induction b as [t p|t ks IH] using box_ind2; intros H fuel fp st HI HL.
    - destruct fuel; [lia|]. cbn [filter_box btype]. rewrite Hnote.
      assert (N : bytes_in t (fc_composite cls) = false).
      { destruct (bytes_in t (fc_composite cls)) eqn:E; auto.
        apply (proj1 (bytes_in_iff _ _)) in E. destruct H as (_ & H & _). contradiction. }
      rewrite N. apply Hleaf; auto.
    - assert (H' := H). apply box_ok_node in H. destruct H as (T & I & SZ & OK).
      destruct fuel as [|f]; [lia|]. cbn [filter_box btype]. rewrite Hnote.
      assert (N : bytes_in t (fc_composite cls) = true) by (apply bytes_in_iff; auto).
      rewrite N. rewrite enc_node in *. rewrite app_assoc in *.
      set (hdr := be32 (8 + blen (encs ks)) ++ t) in *.
      assert (HH : blen hdr = 8) by (unfold hdr; rewrite blen_app, blen_be32; lia).
      assert (TK : btake 8 (hdr ++ encs ks) = hdr) by (rewrite <- HH; apply btake_len).
      rewrite TK. rewrite <- HH at 1.
      rewrite child_loop_tree; auto.
      2:{ apply Forall_forall. intros b Hb OKb fp' st' HI'.
          rewrite Forall_forall in IH. apply IH; auto.
          assert (LE : (List.length (enc b) <= List.length (encs ks))%nat).
          { clear -Hb. induction ks; [contradiction|]. cbn [encs]. rewrite app_length.
            destruct Hb as [->|Hb]; [lia|]. specialize (IHks Hb). lia. }
          rewrite app_length in HL. unfold blen in HH. lia. }
      2:{ rewrite app_length in HL. unfold blen in HH. lia. }
      rewrite tr_node. unfold enc_res.
      destruct (tr_boxes ks st) as [[ks1 st1]|e]; [|reflexivity]. cbn [bind].
      rewrite !blen_app. fold hdr. rewrite HH.
      assert (Q := blen_nonneg (encs ks1)).
      destruct (Z.eqb_spec (8 + blen (encs ks1)) (8 + blen (encs ks))) as [E|E]; cbn [negb].
      + destruct (Z.ltb_spec (8 + blen (encs ks1)) 4294967296); [|lia].
        cbn [bind]. rewrite encs_one, enc_node. unfold hdr. rewrite E, app_assoc. reflexivity.
      + unfold uint32_to_str.
        destruct (Z.ltb_spec (8 + blen (encs ks1)) 4294967296).
        * destruct (Z.leb_spec 0 (8 + blen (encs ks1))); [|lia]. cbn [andb bind].
          rewrite encs_one, enc_node, be32_eq. reflexivity.
        * rewrite andb_false_r. reflexivity.
  Qed.

  (** ** Top level *)
  Definition tr_top (b : box) (st : S) : result (list box * S) :=
    if bytes_in (btype b) (fc_top cls) then tr_box b st else Ok ([b], st).
  (** the top-level output, grouped by input box *)
  Fixpoint tr_tops (l : list box) (st : S) : result (list (bytes * list box) * S) :=
    match l with
    | [] => Ok ([], st)
    | k :: r => let* (a, sa) := tr_top k st in
                let* (b, sb) := tr_tops r sa in Ok ((btype k, a) :: b, sb)
    end.
  Definition groups_bytes (g : list (bytes * list box)) : bytes := encs (flat_map snd g).
  Fixpoint group_sizes (g : list (bytes * list box)) : list (Z * bytes) :=
    match g with
    | [] => []
    | (t, bs) :: r => if 0 <? blen (encs bs) then (blen (encs bs), t) :: group_sizes r else group_sizes r
    end.

  Lemma top_loop_tree : forall l fuel pre output boxes st,
    inv st -> boxes_ok (fc_composite cls) lk l ->
    (List.length (encs l) + 1 < fuel)%nat ->
    top_loop cls fuel (pre ++ encs l) (blen pre) output boxes st =
    let* (g, st1) := tr_tops l st in
    Ok (output ++ groups_bytes g, boxes ++ group_sizes g, st1).
  Proof.
    induction l as [|k l IH]; intros fuel pre output boxes st HI OK HL.
    - destruct fuel; [lia|]. cbn [top_loop encs]. rewrite app_nil_r, Z.ltb_irrefl. cbn.
      rewrite !app_nil_r. reflexivity.
    - destruct fuel as [|f]; [lia|]. cbn [encs] in *. destruct OK as [HK1 HK2].
      assert (T := box_ok_type _ _ _ HK1). assert (Z1 := blen_enc k T).
      assert (Q1 := blen_nonneg (body k)).
      cbn [top_loop].
      assert (B : blen pre <? blen (pre ++ enc k ++ encs l) = true).
      { apply Z.ltb_lt. rewrite !blen_app.
        assert (Q2 := blen_nonneg (encs l)). lia. }
      rewrite B.
      assert (C : bslice (blen pre) (blen pre + 8) (pre ++ enc k ++ encs l)
                  = btake 8 (enc k ++ encs l)).
      { unfold bslice. rewrite bdrop_len. f_equal. lia. }
      rewrite C, (check_box_enc _ _ _ _ HK1). cbn [bind].
      rewrite bslice_mid by reflexivity.
      rewrite app_length in HL.
      assert (R : (if bytes_in (btype k) (fc_top cls)
                   then filter_box cls f (btype k) (enc k) (blen output) st
                   else Ok (enc k, st)) = enc_res (tr_top k st)).
      { unfold tr_top. destruct (bytes_in (btype k) (fc_top cls)).
        - apply filter_box_tree; auto. lia.
        - cbn. rewrite app_nil_r. reflexivity. }
      rewrite R. cbn [tr_tops]. destruct (tr_top k st) as [[a sa]|e] eqn:EK; [|reflexivity].
      cbn [bind enc_res].
      replace (pre ++ enc k ++ encs l) with ((pre ++ enc k) ++ encs l) by (symmetry; apply app_assoc).
      replace (blen pre + blen (enc k)) with (blen (pre ++ enc k)) by apply blen_app.
      rewrite IH; auto; [| |unfold blen in *; lia].
      2:{ unfold tr_top in EK. destruct (bytes_in (btype k) (fc_top cls)).
          - eapply tr_box_inv; [exact HI|exact HK1|exact EK].
          - congruence. }
      destruct (tr_tops l sa) as [[g sb]|e]; [|reflexivity]. cbn [bind].
      unfold groups_bytes. cbn [flat_map snd]. rewrite encs_app. f_equal. f_equal. f_equal.
      + rewrite app_assoc. reflexivity.
      + cbn [group_sizes]. destruct (0 <? blen (encs a)); [rewrite <- app_assoc|]; reflexivity.
  Qed.

  Lemma mp4_filter_tree : forall l st, inv st -> boxes_ok (fc_composite cls) lk l ->
    mp4_filter cls (enough (encs l)) (encs l) st =
    let* (g, st1) := tr_tops l st in
    let* out := fc_finalize cls (groups_bytes g) (group_sizes g) st1 in Ok (out, st1).
  Proof.
    intros l st HI OK. unfold mp4_filter.
    assert (K := top_loop_tree l (enough (encs l)) [] [] [] st HI OK).
    change (blen []) with 0 in K. cbn [app] in K. rewrite K by (unfold enough; lia).
    destruct (tr_tops l st) as [[g st1]|e]; reflexivity.
  Qed.
End Tree.
