(** Filters that read, and filters that replace payloads by others of the same
    length, on trees. *)
From Coq Require Import ZifyBool ZifyNat.
From Verif Require Import Base BaseProofs BytesModel BytesProofs BoxSpec Mp4Model Mp4Proofs InitModel InitSpec MediaProofs MediaProofs2.
Open Scope Z_scope.

Lemma leaves_node : forall t ks, leaves (Node t ks) = flat_map leaves ks.
Proof.
  intros. cbn [leaves]. induction ks as [|k ks IH]; [reflexivity|]. cbn [flat_map]. rewrite <- IH. reflexivity.
Qed.

(** ** Reading *)
Section Reader.
  Context {S : Type}.
  Variable cls : fclass S.
  Variable lk : bytes -> bytes -> Prop.
  Variable upd : bytes -> bytes -> S -> result S.
  Hypothesis Hnote : forall t z st, fc_note cls t z st = st.
  Hypothesis Hread : forall t p st, box_ok (fc_composite cls) lk (Leaf t p) ->
    process_leaf cls t (enc (Leaf t p)) st = let* st1 := upd t p st in Ok (enc (Leaf t p), st1).

  Fixpoint read_all (l : list (bytes * bytes)) (st : S) : result S :=
    match l with [] => Ok st | x :: r => let* st1 := upd (fst x) (snd x) st in read_all r st1 end.
  Lemma read_app : forall a b st, read_all (a ++ b) st = let* st1 := read_all a st in read_all b st1.
  Proof.
    induction a as [|x a IH]; intros b st; [reflexivity|]. cbn [app read_all].
    destruct (upd (fst x) (snd x) st); [|reflexivity]. cbn [bind]. apply IH.
  Qed.
  Definition rd_lf (t p : bytes) (st : S) : result (list box * S) := let* st1 := upd t p st in Ok ([Leaf t p], st1).

  Lemma rd_box : forall b st, box_ok (fc_composite cls) lk b ->
    tr_box rd_lf b st = let* st1 := read_all (leaves b) st in Ok ([b], st1).
  Proof.
    induction b as [t p|t ks IH] using box_ind2; intros st OK.
    - cbn [tr_box leaves read_all fst snd]. unfold rd_lf. destruct (upd t p st); reflexivity.
    - rewrite tr_node. apply box_ok_node in OK. destruct OK as (T & I & SZ & OK). rewrite leaves_node.
      assert (K : forall st, tr_boxes rd_lf ks st = let* st1 := read_all (flat_map leaves ks) st in Ok (ks, st1)).
      { clear SZ T I st. induction ks as [|k ks IHk]; intros st; [reflexivity|]. cbn [tr_boxes flat_map].
        inversion IH; subst. destruct OK as [O1 O2]. rewrite H1 by auto. rewrite read_app.
        destruct (read_all (leaves k) st) as [s1|e]; [|reflexivity]. cbn [bind]. rewrite IHk by auto.
        destruct (read_all (flat_map leaves ks) s1) as [s2|e]; reflexivity. }
      rewrite K. destruct (read_all (flat_map leaves ks) st) as [s1|e]; [|reflexivity]. cbn [bind].
      destruct (Z.ltb_spec (8 + blen (encs ks)) 4294967296); [reflexivity|lia].
  Qed.
  Definition top_leaves (l : list box) : list (bytes * bytes) :=
    flat_map (fun b => if bytes_in (btype b) (fc_top cls) then leaves b else []) l.
  Lemma reader : forall l st, boxes_ok (fc_composite cls) lk l ->
    mp4_filter cls (enough (encs l)) (encs l) st =
    let* st1 := read_all (top_leaves l) st in
    let* out := fc_finalize cls (encs l) (group_sizes (map (fun b => (btype b, [b])) l)) st1 in Ok (out, st1).
  Proof.
    intros l st OK. rewrite (mp4_filter_tree cls lk rd_lf Hnote (fun _ => True)); auto.
    2:{ intros t p s _ B. rewrite Hread by auto. unfold rd_lf, enc_res. destruct (upd t p s); [|reflexivity].
        cbn [bind]. rewrite encs_one. reflexivity. }
    assert (K : forall st, tr_tops cls rd_lf l st =
      let* st1 := read_all (top_leaves l) st in Ok (map (fun b => (btype b, [b])) l, st1)).
    { clear st. induction l as [|b l IH]; intros st; [reflexivity|]. destruct OK as [O1 O2]. cbn [tr_tops]. unfold tr_top.
      unfold top_leaves. cbn [flat_map]. destruct (bytes_in (btype b) (fc_top cls)).
      - rewrite rd_box by auto. rewrite read_app. destruct (read_all (leaves b) st) as [s1|e]; [|reflexivity]. cbn [bind].
        rewrite IH by auto. fold (top_leaves l). destruct (read_all (top_leaves l) s1); reflexivity.
      - cbn [bind app]. rewrite IH by auto. fold (top_leaves l). destruct (read_all (top_leaves l) st); reflexivity. }
    rewrite K. destruct (read_all (top_leaves l) st) as [s1|e]; [|reflexivity]. cbn [bind].
    assert (G : groups_bytes (map (fun b => (btype b, [b])) l) = encs l).
    { unfold groups_bytes. clear. induction l as [|b l IH]; [reflexivity|]. cbn [map flat_map snd app encs]. rewrite IH. reflexivity. }
    rewrite G. reflexivity.
  Qed.
End Reader.

(** ** Replacing payloads *)
Section Replace.
  Context {S : Type}.
  Variable cls : fclass S.
  Variable lk : bytes -> bytes -> Prop.
  Variable rp : bytes -> bytes -> bytes.
  Variable upd : bytes -> bytes -> S -> S.
  Hypothesis Hnote : forall t z st, fc_note cls t z st = st.
  Hypothesis Hrp : forall t p st, box_ok (fc_composite cls) lk (Leaf t p) ->
    process_leaf cls t (enc (Leaf t p)) st = Ok (enc (Leaf t (rp t p)), upd t p st).
  Hypothesis Hlen : forall t p, lk t p -> blen (rp t p) = blen p.

  Fixpoint rp_box (b : box) : box :=
    match b with
    | Leaf t p => Leaf t (rp t p)
    | Node t ks => Node t ((fix go l := match l with [] => [] | k :: r => rp_box k :: go r end) ks)
    end.
  Lemma rp_node : forall t ks, rp_box (Node t ks) = Node t (map rp_box ks).
  Proof. intros. cbn [rp_box]. f_equal. Qed.
  Definition rp_lf (t p : bytes) (st : S) : result (list box * S) := Ok ([Leaf t (rp t p)], upd t p st).
  Lemma rp_len_boxes : forall ks, Forall (fun b => box_ok (fc_composite cls) lk b -> blen (enc (rp_box b)) = blen (enc b)) ks ->
    boxes_ok (fc_composite cls) lk ks -> blen (encs (map rp_box ks)) = blen (encs ks).
  Proof.
    induction 1; intros OK; [reflexivity|]. destruct OK as [O1 O2]. cbn [map encs]. rewrite !blen_app, H, IHForall by auto. reflexivity.
  Qed.
  Lemma rp_len : forall b, box_ok (fc_composite cls) lk b -> blen (enc (rp_box b)) = blen (enc b).
  Proof.
    induction b as [t p|t ks IH] using box_ind2; intros OK.
    - cbn [rp_box]. rewrite !enc_leaf, !blen_app. destruct OK as (_ & _ & _ & L). rewrite Hlen by auto. reflexivity.
    - rewrite rp_node. apply box_ok_node in OK. destruct OK as (T & I & SZ & OK). rewrite !enc_node, !blen_app.
      rewrite rp_len_boxes by auto. reflexivity.
  Qed.
  Lemma rp_tr : forall b st, box_ok (fc_composite cls) lk b -> exists st1, tr_box rp_lf b st = Ok ([rp_box b], st1).
  Proof.
    induction b as [t p|t ks IH] using box_ind2; intros st OK.
    - eexists. reflexivity.
    - rewrite tr_node, rp_node. apply box_ok_node in OK. destruct OK as (T & I & SZ & OK).
      assert (K : exists st1, tr_boxes rp_lf ks st = Ok (map rp_box ks, st1)).
      { clear SZ T I. revert st. induction ks as [|k ks IHk]; intros st; [eexists; reflexivity|]. cbn [tr_boxes map].
        inversion IH; subst. destruct OK as [O1 O2]. destruct (H1 st O1) as [s1 E1]. rewrite E1. cbn [bind].
        destruct (IHk H2 O2 s1) as [s2 E2]. rewrite E2. eexists. reflexivity. }
      destruct K as [s1 K]. rewrite K. cbn [bind].
      rewrite rp_len_boxes; auto.
      2:{ rewrite Forall_forall. intros. apply rp_len. auto. }
      destruct (Z.ltb_spec (8 + blen (encs ks)) 4294967296); [eexists; reflexivity|lia].
  Qed.
  Definition rp_top (b : box) : box := if bytes_in (btype b) (fc_top cls) then rp_box b else b.
  Lemma replacer : forall l st, boxes_ok (fc_composite cls) lk l ->
    (forall o g s, fc_finalize cls o g s = Ok o) ->
    exists st1, mp4_filter cls (enough (encs l)) (encs l) st = Ok (encs (map rp_top l), st1).
  Proof.
    intros l st OK FIN. rewrite (mp4_filter_tree cls lk rp_lf Hnote (fun _ => True)); auto.
    2:{ intros t p s _ B. rewrite Hrp by auto. unfold rp_lf, enc_res. cbn [bind]. rewrite encs_one. reflexivity. }
    assert (K : exists st1 g, tr_tops cls rp_lf l st = Ok (g, st1) /\ groups_bytes g = encs (map rp_top l)).
    { revert st. induction l as [|b l IH]; intros st; [eexists; eexists; split; reflexivity|]. destruct OK as [O1 O2]. cbn [tr_tops map].
      unfold tr_top. unfold rp_top at 1. destruct (bytes_in (btype b) (fc_top cls)).
      - destruct (rp_tr b st O1) as [s1 E1]. rewrite E1. cbn [bind]. destruct (IH O2 s1) as (s2 & g & E2 & G). rewrite E2. cbn [bind].
        eexists. eexists. split; [reflexivity|]. unfold groups_bytes in *. cbn [flat_map snd app encs]. rewrite G. reflexivity.
      - cbn [bind]. destruct (IH O2 st) as (s2 & g & E2 & G). rewrite E2. cbn [bind].
        eexists. eexists. split; [reflexivity|]. unfold groups_bytes in *. cbn [flat_map snd app encs]. rewrite G. reflexivity. }
    destruct K as (s1 & g & K & G). rewrite K. cbn [bind]. rewrite FIN. cbn [bind]. rewrite G. eexists. reflexivity.
  Qed.
  Lemma rp_top_len : forall l, boxes_ok (fc_composite cls) lk l -> blen (encs (map rp_top l)) = blen (encs l).
  Proof.
    induction l as [|b l IH]; intros OK; [reflexivity|]. destruct OK as [O1 O2]. cbn [map encs]. rewrite !blen_app, IH by auto.
    unfold rp_top. destruct (bytes_in (btype b) (fc_top cls)); [|reflexivity]. rewrite rp_len by auto. reflexivity.
  Qed.
  Lemma rp_ok : forall b, (forall t p, lk t p -> lk t (rp t p)) -> box_ok (fc_composite cls) lk b -> box_ok (fc_composite cls) lk (rp_box b).
  Proof.
    intros b HL. induction b as [t p|t ks IH] using box_ind2; intros OK.
    - cbn [rp_box]. destruct OK as (A & B & C & D). split; [auto|]. split; [auto|]. split; [|auto]. rewrite Hlen by auto. auto.
    - rewrite rp_node. apply box_ok_node in OK. destruct OK as (T & I & SZ & OK). apply box_ok_node.
      split; [auto|]. split; [auto|]. split.
      + rewrite rp_len_boxes; auto. rewrite Forall_forall. intros. apply rp_len. auto.
      + clear T I SZ. induction ks as [|k ks IHk]; [exact Logic.I|]. inversion IH; subst. destruct OK. cbn [map]. split; auto.
  Qed.
  Lemma rp_tops_ok : forall l, (forall t p, lk t p -> lk t (rp t p)) -> boxes_ok (fc_composite cls) lk l -> boxes_ok (fc_composite cls) lk (map rp_top l).
  Proof.
    intros l HL. induction l as [|b l IH]; intros OK; [exact Logic.I|]. destruct OK as [O1 O2]. cbn [map]. split; [|auto].
    unfold rp_top. destruct (bytes_in (btype b) (fc_top cls)); [apply rp_ok; auto|auto].
  Qed.
  Lemma rp_btype : forall b, btype (rp_box b) = btype b.
  Proof. intros [t p|t ks]; reflexivity. Qed.
  Lemma rp_idem : forall b, (forall t p, lk t p -> rp t (rp t p) = rp t p) -> box_ok (fc_composite cls) lk b -> rp_box (rp_box b) = rp_box b.
  Proof.
    intros b HI. induction b as [t p|t ks IH] using box_ind2; intros OK.
    - cbn [rp_box]. rewrite HI; [reflexivity|]. apply OK.
    - rewrite rp_node, rp_node, map_map. f_equal. apply box_ok_node in OK. destruct OK as (_ & _ & _ & OK).
      induction ks as [|k ks IHk]; [reflexivity|]. inversion IH; subst. destruct OK. cbn [map]. rewrite H1 by auto. f_equal. auto.
  Qed.
  Lemma rp_tops_idem : forall l, (forall t p, lk t p -> rp t (rp t p) = rp t p) -> boxes_ok (fc_composite cls) lk l ->
    map rp_top (map rp_top l) = map rp_top l.
  Proof.
    intros l HI. induction l as [|b l IH]; intros OK; [reflexivity|]. destruct OK as [O1 O2]. cbn [map]. rewrite IH by auto. f_equal.
    unfold rp_top. destruct (bytes_in (btype b) (fc_top cls)) eqn:E.
    - rewrite rp_btype, E. apply rp_idem; auto.
    - rewrite E. reflexivity.
  Qed.
End Replace.
