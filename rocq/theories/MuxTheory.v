(** Multiplexed segments (C38, C39). *)
From Coq Require Import ZifyBool ZifyNat.
From Verif Require Import Base BaseProofs BytesModel BytesProofs BoxSpec Mp4Model Mp4Proofs InitModel InitSpec InitProofs MuxModel MuxSpec MuxProofs MediaProofs MediaProofs2.
Open Scope Z_scope.

(** ** C39 *)
Lemma slice_in : forall pre x post k n, 0 <= k -> 0 <= n -> k + n <= blen x ->
  bslice (blen pre + k) (blen pre + k + n) (pre ++ x ++ post) = bslice k (k + n) x.
Proof.
  intros. rewrite bslice_app_r by (assert (Q := blen_nonneg pre); lia).
  replace (blen pre + k - blen pre) with k by lia. replace (blen pre + k + n - blen pre) with (k + n) by lia.
  apply bslice_app_l; lia.
Qed.
Lemma mdat_hdr : forall p, enc (Leaf (bstr "mdat") p) = (be32 (8 + blen p) ++ bstr "mdat") ++ p.
Proof. intros. apply enc_leaf. Qed.
Lemma own_bytes : forall f n, designates_media f n ->
  bslice (moof_at f + fr_offset f) (moof_at f + fr_offset f + n) (encs (seg_of f)) =
  bslice (fr_offset f - moof_len f - 8) (fr_offset f - moof_len f - 8 + n) (fr_mdat f).
Proof.
  intros f n (H1 & H2 & H3). unfold seg_of. rewrite encs_app. cbn [encs]. rewrite app_nil_r.
  fold (moof_of f). rewrite mdat_hdr. rewrite !app_assoc.
  set (pre := ((encs (before_moof f) ++ enc (moof_of f)) ++ be32 (8 + blen (fr_mdat f))) ++ bstr "mdat").
  assert (L : blen pre = moof_at f + moof_len f + 8).
  { unfold pre, moof_at, moof_len. rewrite !blen_app, blen_be32, blen_bstr. cbn [String.length]. unfold moof_of. lia. }
  replace (moof_at f + fr_offset f) with (blen pre + (fr_offset f - moof_len f - 8)) by lia.
  rewrite <- (app_nil_r (pre ++ fr_mdat f)), <- app_assoc. apply slice_in; lia.
Qed.
Lemma moof_len_eq : forall f, moof_len f = 8 + blen (enc (Leaf (bstr "mfhd") (fr_mfhd f))) + blen (enc (traf_with f (fr_offset f))).
Proof.
  intros f. unfold moof_len. rewrite enc_node. cbn [encs]. rewrite !app_nil_r, !blen_app, blen_be32, blen_bstr. cbn [String.length]. lia.
Qed.
Lemma joint_bytes : forall a b o1 o2 k n, blen (fr_count a) = 4 -> blen (fr_count b) = 4 ->
  0 <= k -> 0 <= n -> k + n <= blen (fr_mdat a ++ fr_mdat b) ->
  let o := moof_len a + blen (enc (traf_with b (fr_offset b))) + 8 + k in
  bslice (joint_moof_at a + o) (joint_moof_at a + o + n) (encs (joint a b o1 o2)) = bslice k (k + n) (fr_mdat a ++ fr_mdat b).
Proof.
  intros a b o1 o2 k n CA CB K N B o. unfold joint. cbn [encs]. rewrite app_nil_r. rewrite mdat_hdr.
  set (st := enc (Leaf (bstr "styp") (fr_styp a))).
  set (m := enc (Node (bstr "moof") _)). set (h := be32 _ ++ bstr "mdat").
  rewrite !app_assoc. rewrite <- (app_assoc _ (fr_mdat a)). set (pre := (st ++ m) ++ h).
  assert (L : blen pre = joint_moof_at a + moof_len a + blen (enc (traf_with b (fr_offset b))) + 8).
  { unfold pre, h, m. rewrite !blen_app, blen_be32, blen_bstr. cbn [String.length]. rewrite enc_node. cbn [encs].
    rewrite !app_nil_r, !blen_app, blen_be32, blen_bstr. cbn [String.length]. rewrite (traf_len a o1), (traf_len b o2) by auto.
    rewrite moof_len_eq. unfold joint_moof_at. fold st. lia. }
  replace (joint_moof_at a + o) with (blen pre + k) by (unfold o; lia).
  rewrite <- (app_nil_r (pre ++ fr_mdat a ++ fr_mdat b)), <- app_assoc. apply slice_in; lia.
Qed.
Lemma seg_len : forall f, blen (encs (seg_of f)) = moof_at f + moof_len f + 8 + blen (fr_mdat f).
Proof.
  intros f. unfold seg_of. rewrite encs_app. cbn [encs]. rewrite app_nil_r, !blen_app. rewrite mdat_hdr, !blen_app, blen_be32, blen_bstr.
  cbn [String.length]. unfold moof_at, moof_len. lia.
Qed.
Definition new1 (a b : fragment) : Z := fr_offset a + blen (enc (traf_with b (fr_offset b))).
Definition new2 (a b : fragment) : Z := fr_offset b + blen (enc (traf_with a (fr_offset a))) + blen (fr_mdat a).
Lemma enc_pos : forall b, 0 <= blen (enc b).
Proof. intros. apply blen_nonneg. Qed.
Lemma mux_run : forall a b, fragment_ok a -> fragment_ok b -> 
  new1 a b < 4294967296 -> new2 a b < 4294967296 ->
  moof_len a + blen (enc (traf_with b (fr_offset b))) < 4294967296 ->
  8 + blen (fr_mdat a) + blen (fr_mdat b) < 4294967296 ->
  mux_media (encs (seg_of a)) (encs (seg_of b)) = Ok (encs (joint a b (new1 a b) (new2 a b))).
Proof.
  intros a b OA OB N1 N2 ML DL. unfold mux_media. rewrite !read_fragment by auto. cbn [bind].
  destruct OA as (_ & _ & _ & _ & _ & CA & BA). destruct OB as (_ & _ & _ & _ & _ & CB & BB).
  rewrite moof_len_eq in ML.
  assert (LM : forall p, blen (enc (Leaf (bstr "mdat") p)) = 8 + blen p).
  { intros. rewrite mdat_hdr, !blen_app, blen_be32, blen_bstr. cbn [String.length]. lia. }
  assert (Q1 := enc_pos (traf_with a (fr_offset a))). assert (Q2 := enc_pos (traf_with b (fr_offset b))).
  assert (Q3 := enc_pos (Leaf (bstr "mfhd") (fr_mfhd a))).
  assert (Q4 := blen_nonneg (fr_mdat a)). assert (Q5 := blen_nonneg (fr_mdat b)).
  unfold mux_samples, struct_of. cbn [mt_styp mt_moof mt_mdat mt_mfhd mt_traf mt_traf_start mt_offset mt_offset_in_traf some_box bind].
  unfold traf_mod. cbn [mt_offset mt_offset_in_traf].
  rewrite (p32_ok (fr_offset a + _)) by (unfold new1 in N1; lia). cbn [bind].
  rewrite (p32_ok (fr_offset b + _)) by (unfold new2 in N2; rewrite LM; lia). cbn [bind].
  rewrite !be32_eq, !traf_set by auto. rewrite !LM.
  rewrite (p32_ok (8 + _ + _ + _)) by lia. cbn [bind].
  rewrite (p32_ok (8 + blen (fr_mdat a) + (8 + blen (fr_mdat b)) - 8)) by lia. cbn [bind].
  f_equal. unfold joint. cbn [encs]. rewrite app_nil_r. f_equal. rewrite enc_node. cbn [encs].
  rewrite !app_nil_r, !blen_app. rewrite (traf_len a (new1 a b) CA), (traf_len b (new2 a b) CB). rewrite ?be32_eq.
  fold (new1 a b). replace (fr_offset b + (blen (enc (traf_with a (fr_offset a))) + (8 + blen (fr_mdat a)) - 8)) with (new2 a b)
    by (unfold new2; lia).
  rewrite !drop8_leaf by reflexivity. rewrite (mdat_hdr (fr_mdat a ++ fr_mdat b)). rewrite ?blen_app.
  rewrite <- !app_assoc.
  replace (8 + blen (enc (Leaf (bstr "mfhd") (fr_mfhd a))) + blen (enc (traf_with a (fr_offset a))) + blen (enc (traf_with b (fr_offset b))))
    with (8 + (blen (enc (Leaf (bstr "mfhd") (fr_mfhd a))) + (blen (enc (traf_with a (fr_offset a))) + blen (enc (traf_with b (fr_offset b)))))) by lia.
  replace (8 + blen (fr_mdat a) + (8 + blen (fr_mdat b)) - 8) with (8 + (blen (fr_mdat a) + blen (fr_mdat b))) by lia.
  reflexivity.
Qed.
(** The multiplexed segment has one fragment with both track fragments, equal
    to the given ones but for the data offsets, and one media data box with
    both media data; each new data offset leads to the very bytes the old one
    led to. *)
Lemma C39_joint_partial_pf : forall a b, fragment_ok a -> fragment_ok b ->
  blen (fr_mfhd a) = blen (fr_mfhd b) ->
  blen (encs (seg_of a)) + blen (encs (seg_of b)) < 4294967296 ->
  designates_media a 0 -> designates_media b 0 ->
  exists o1 o2,
    mux_media (encs (seg_of a)) (encs (seg_of b)) = Ok (encs (joint a b o1 o2)) /\
    (forall n, designates_media a n ->
       bslice (joint_moof_at a + o1) (joint_moof_at a + o1 + n) (encs (joint a b o1 o2)) =
       bslice (moof_at a + fr_offset a) (moof_at a + fr_offset a + n) (encs (seg_of a))) /\
    (forall n, designates_media b n ->
       bslice (joint_moof_at a + o2) (joint_moof_at a + o2 + n) (encs (joint a b o1 o2)) =
       bslice (moof_at b + fr_offset b) (moof_at b + fr_offset b + n) (encs (seg_of b))).
Proof.
  intros a b OA OB HM HS DA DB. exists (new1 a b), (new2 a b).
  rewrite !seg_len in HS.
  assert (PA := blen_nonneg (encs (before_moof a))). fold (moof_at a) in PA.
  assert (PB := blen_nonneg (encs (before_moof b))). fold (moof_at b) in PB.
  assert (MA := moof_len_eq a). assert (MB := moof_len_eq b).
  assert (QA := enc_pos (Leaf (bstr "mfhd") (fr_mfhd a))). assert (QB := enc_pos (Leaf (bstr "mfhd") (fr_mfhd b))).
  assert (TA := enc_pos (traf_with a (fr_offset a))). assert (TB := enc_pos (traf_with b (fr_offset b))).
  assert (EM : blen (enc (Leaf (bstr "mfhd") (fr_mfhd a))) = blen (enc (Leaf (bstr "mfhd") (fr_mfhd b)))).
  { rewrite !enc_leaf, !blen_app, !blen_be32. lia. }
  assert (NA := blen_nonneg (fr_mdat a)). assert (NB := blen_nonneg (fr_mdat b)).
  assert (CA : blen (fr_count a) = 4) by apply OA. assert (CB : blen (fr_count b) = 4) by apply OB.
  split; [|split].
  - destruct DA as (D1 & _ & D2). destruct DB as (E1 & _ & E2). apply mux_run; auto; unfold new1, new2; lia.
  - intros n D. rewrite own_bytes by auto. destruct D as (D1 & D2 & D3).
    assert (K := joint_bytes a b (new1 a b) (new2 a b) (fr_offset a - moof_len a - 8) n CA CB ltac:(lia) ltac:(lia)).
    cbn zeta in K.
    replace (moof_len a + blen (enc (traf_with b (fr_offset b))) + 8 + (fr_offset a - moof_len a - 8)) with (new1 a b) in K
      by (unfold new1; lia).
    rewrite K by (rewrite blen_app; lia). apply bslice_app_l; lia.
  - intros n D. rewrite own_bytes by auto. destruct D as (D1 & D2 & D3).
    assert (K := joint_bytes a b (new1 a b) (new2 a b) (blen (fr_mdat a) + (fr_offset b - moof_len b - 8)) n CA CB ltac:(lia) ltac:(lia)).
    cbn zeta in K.
    replace (moof_len a + blen (enc (traf_with b (fr_offset b))) + 8 + (blen (fr_mdat a) + (fr_offset b - moof_len b - 8))) with (new2 a b) in K
      by (unfold new2; lia).
    rewrite K by (rewrite blen_app; lia). rewrite bslice_app_r by lia. f_equal; lia.
Qed.
Definition ex_fragment (n : Z) (mdat : bytes) (before : list box) : fragment :=
  mk_fragment before (bstr "msdh" ++ [0; 0; 0; 0]) [Leaf (bstr "sidx") [1; 2; 3]] [0; 0; 0; 0; 0; 0; 0; n]
    [Leaf (bstr "tfhd") [0; 2; 0; 0; 0; 0; 0; n]] 0 1 [0; 0; 0; 1] 87 [] [Leaf (bstr "sdtp") [9]] mdat.
Definition ex_frag1 : fragment := ex_fragment 1 [10; 20; 30; 40; 50; 60; 70; 80; 90; 100; 110; 120] [].
Definition ex_frag2 : fragment := ex_fragment 2 [5; 15; 25; 35; 45; 55; 65; 75; 85; 95; 105] [Leaf (bstr "prft") [7; 7]].
Ltac tree_tac :=
  apply (proj2 (boxes_ok_Forall _ _ _));
  repeat match goal with
    | |- Forall _ _ => constructor
    | |- box_ok _ _ _ => cbn [box_ok]
    | |- _ /\ _ => split
    | |- True => exact I
    | |- any_payload _ _ => exact I
    | |- In _ _ => cbn; tauto
    | |- ~ In _ _ => cbn; intuition discriminate
    | |- _ < _ => vm_compute; reflexivity
    | |- blen _ = _ => vm_compute; reflexivity
    end.
Lemma ex_frag1_ok : fragment_ok ex_frag1.
Proof.
  split; [|split]. 
  - cbv [seg_of ex_frag1 ex_frag2 ex_fragment before_moof fr_before fr_styp fr_after fr_mfhd fr_offset fr_mdat traf_with run_payload fr_version fr_flags fr_count fr_rest fr_kids1 fr_kids2 app]. tree_tac.
  - cbn. repeat constructor; cbn; intuition discriminate.
  - cbn. repeat split; lia.
Qed.
Lemma ex_frag2_ok : fragment_ok ex_frag2.
Proof.
  split; [|split].
  - cbv [seg_of ex_frag1 ex_frag2 ex_fragment before_moof fr_before fr_styp fr_after fr_mfhd fr_offset fr_mdat traf_with run_payload fr_version fr_flags fr_count fr_rest fr_kids1 fr_kids2 app]. tree_tac.
  - cbn. repeat constructor; cbn; intuition discriminate.
  - cbn. repeat split; lia.
Qed.
Example C39_joint_case : fragment_ok ex_frag1 /\ fragment_ok ex_frag2 /\
  blen (fr_mfhd ex_frag1) = blen (fr_mfhd ex_frag2) /\
  blen (encs (seg_of ex_frag1)) + blen (encs (seg_of ex_frag2)) < 4294967296 /\
  designates_media ex_frag1 10 /\ designates_media ex_frag2 9.
Proof.
  split; [apply ex_frag1_ok|]. split; [apply ex_frag2_ok|]. split; [reflexivity|]. split; [vm_compute; reflexivity|].
  split; repeat split; vm_compute; discriminate.
Qed.

(** Where it fails: a track fragment with two runs keeps the offset of the
    first one. *)
Definition ex_run (o : Z) : box := Leaf (bstr "trun") (be32 1 ++ be32 1 ++ be32 o).
Definition ex_seg (kids : list box) (mdat : bytes) : list box :=
  [Leaf (bstr "styp") (bstr "msdh"); Node (bstr "moof") kids; Leaf (bstr "mdat") mdat].
Definition ex_mfhd : box := Leaf (bstr "mfhd") [0; 0; 0; 0; 0; 0; 0; 1].
Lemma C39_two_runs_refuted_pf : exists o o' o'' t2 m1 m2 l2,
  let l1 := ex_seg [ex_mfhd; Node (bstr "traf") [ex_run o; ex_run o']] m1 in
  let j := ex_seg [ex_mfhd; Node (bstr "traf") [ex_run o; ex_run o'']; t2] (m1 ++ m2) in
  boxes_ok moof_nodes any_payload l1 /\ boxes_ok moof_nodes any_payload l2 /\
  mux_media (encs l1) (encs l2) = Ok (encs j) /\
  bslice (12 + o) (12 + o + 2) (encs l1) = btake 2 m1 /\
  bslice (12 + o) (12 + o + 2) (encs j) <> btake 2 m1.
Proof.
  exists 80, 82, 110, (Node (bstr "traf") [ex_run 112]), [1; 2; 3; 4], [5; 6],
    (ex_seg [ex_mfhd; Node (bstr "traf") [ex_run 60]] [5; 6]).
  cbn zeta. split; [unfold ex_seg, ex_mfhd, ex_run; tree_tac|]. split; [unfold ex_seg, ex_mfhd, ex_run; tree_tac|].
  vm_compute. repeat split. discriminate.
Qed.

(** An extra box in the second movie fragment shifts the samples of the second
    track. *)
Lemma C39_extra_box_refuted_pf : exists x o1 o1' o2 o2' m1 m2,
  let l1 := ex_seg [ex_mfhd; Node (bstr "traf") [ex_run o1]] m1 in
  let l2 := ex_seg [ex_mfhd; x; Node (bstr "traf") [ex_run o2]] m2 in
  let j := ex_seg [ex_mfhd; Node (bstr "traf") [ex_run o1']; Node (bstr "traf") [ex_run o2']] (m1 ++ m2) in
  boxes_ok moof_nodes any_payload l1 /\ boxes_ok moof_nodes any_payload l2 /\
  mux_media (encs l1) (encs l2) = Ok (encs j) /\
  bslice (12 + o2) (12 + o2 + 4) (encs l2) = m2 /\
  bslice (12 + o2') (12 + o2' + 4) (encs j) <> m2.
Proof.
  exists (Leaf (bstr "pssh") [1; 2; 3; 4]), 60, 88, 72, 104, [1; 2; 3; 4], [5; 6; 7; 8].
  cbn zeta. split; [unfold ex_seg, ex_mfhd, ex_run; tree_tac|]. split; [unfold ex_seg, ex_mfhd, ex_run; tree_tac|].
  vm_compute. repeat split. discriminate.
Qed.
(** The offset of the sample auxiliary information (saio, relative to the
    movie fragment) of the second track is not adjusted. *)
Lemma C39_aux_info_refuted_pf : exists o1 o1' o2 o2' so senc m1 m2,
  let saio := Leaf (bstr "saio") (be32 0 ++ be32 1 ++ be32 so) in
  let l1 := ex_seg [ex_mfhd; Node (bstr "traf") [ex_run o1]] m1 in
  let l2 := ex_seg [ex_mfhd; Node (bstr "traf") [ex_run o2; saio; Leaf (bstr "senc") senc]] m2 in
  let j := ex_seg [ex_mfhd; Node (bstr "traf") [ex_run o1']; Node (bstr "traf") [ex_run o2'; saio; Leaf (bstr "senc") senc]] (m1 ++ m2) in
  boxes_ok moof_nodes any_payload l1 /\ boxes_ok moof_nodes any_payload l2 /\
  mux_media (encs l1) (encs l2) = Ok (encs j) /\
  bslice (12 + so) (12 + so + 4) (encs l2) = senc /\
  bslice (12 + so) (12 + so + 4) (encs j) <> senc.
Proof.
  exists 60, 120, 92, 124, 80, [9; 8; 7; 6], [1; 2; 3; 4], [5; 6; 7; 8].
  cbn zeta. split; [unfold ex_seg, ex_mfhd, ex_run; tree_tac|]. split; [unfold ex_seg, ex_mfhd, ex_run; tree_tac|].
  vm_compute. repeat split. discriminate.
Qed.
(** A first segment without a segment type box cannot be multiplexed. *)
Lemma C39_no_styp_refuted_pf : exists l1 l2,
  boxes_ok moof_nodes any_payload l1 /\ fragment_ok l2 /\
  l1 = skipn 1 (ex_seg [ex_mfhd; Node (bstr "traf") [ex_run 60]] [1; 2; 3; 4]) /\
  mux_media (encs l1) (encs (seg_of l2)) = Err "TypeError".
Proof.
  exists [Node (bstr "moof") [ex_mfhd; Node (bstr "traf") [ex_run 60]]; Leaf (bstr "mdat") [1; 2; 3; 4]], ex_frag2.
  split; [unfold ex_mfhd, ex_run; tree_tac|]. split; [apply ex_frag2_ok|]. split; [reflexivity|]. vm_compute. reflexivity.
Qed.

(** ** C38 *)
Definition supd (t p : bytes) (s : istruct) : istruct :=
  if bytes_eqb t (bstr "ftyp") then mk_istruct (Some (enc (Leaf t p))) (it_mvhd s) (it_trex s) (it_trak s)
  else if bytes_eqb t (bstr "mvhd") then mk_istruct (it_ftyp s) (Some (enc (Leaf t p))) (it_trex s) (it_trak s)
  else if bytes_eqb t (bstr "trex") then mk_istruct (it_ftyp s) (it_mvhd s) (Some (enc (Leaf t p))) (it_trak s)
  else if bytes_eqb t (bstr "trak") then mk_istruct (it_ftyp s) (it_mvhd s) (it_trex s) (Some (enc (Leaf t p)))
  else s.
Lemma istruct_leaf : forall t p st, box_ok (fc_composite istruct_class) decodable (Leaf t p) ->
  process_leaf istruct_class t (enc (Leaf t p)) st = let* st1 := Ok (supd t p st) in Ok (enc (Leaf t p), st1).
Proof.
  intros t p st (T & _ & _ & U). unfold decodable in U. unfold process_leaf. rewrite U. cbn [istruct_class fc_method bind].
  unfold s_method, supd. destruct (bytes_eqb t (bstr "ftyp")); [reflexivity|]. destruct (bytes_eqb t (bstr "mvhd")); [reflexivity|].
  destruct (bytes_eqb t (bstr "trex")); [reflexivity|]. destruct (bytes_eqb t (bstr "trak")); reflexivity.
Qed.
Lemma istruct_top : forall l, top_leaves istruct_class l = init_leaves l.
Proof.
  intros l. unfold top_leaves, init_leaves. apply flat_map_ext. intros b. cbn [istruct_class fc_top]. unfold bytes_in. cbn [existsb].
  rewrite orb_false_r. reflexivity.
Qed.
Definition sread (l : list (bytes * bytes)) (s : istruct) : istruct := fold_left (fun s x => supd (fst x) (snd x) s) l s.
Lemma istruct_run : forall l, boxes_ok init_nodes decodable l -> read_istruct (encs l) = Ok (sread (init_leaves l) istruct0).
Proof.
  intros l OK. unfold read_istruct.
  rewrite (reader istruct_class decodable (fun t p s => Ok (supd t p s)) ltac:(reflexivity) istruct_leaf) by auto.
  rewrite istruct_top.
  assert (K : forall m s, read_all (fun t p s => Ok (supd t p s)) m s = Ok (sread m s)).
  { induction m as [|x m IH]; intros s; [reflexivity|]. cbn [read_all bind]. apply IH. }
  rewrite K. reflexivity.
Qed.
Definition slast (t : bytes) (l : list bytes) (d : option bytes) : option bytes := fold_left (fun _ p => Some (enc (Leaf t p))) l d.
Lemma of_cons : forall t x l, of_type t (x :: l) = if bytes_eqb (fst x) t then snd x :: of_type t l else of_type t l.
Proof. intros. unfold of_type. cbn [filter]. destruct (bytes_eqb (fst x) t); reflexivity. Qed.
Lemma sread_spec : forall l s,
  it_ftyp (sread l s) = slast (bstr "ftyp") (of_type (bstr "ftyp") l) (it_ftyp s) /\
  it_mvhd (sread l s) = slast (bstr "mvhd") (of_type (bstr "mvhd") l) (it_mvhd s) /\
  it_trex (sread l s) = slast (bstr "trex") (of_type (bstr "trex") l) (it_trex s) /\
  it_trak (sread l s) = slast (bstr "trak") (of_type (bstr "trak") l) (it_trak s).
Proof.
  induction l as [|[t p] l IH]; intros s; [repeat split|].
  change (sread ((t, p) :: l) s) with (sread l (supd t p s)). destruct (IH (supd t p s)) as (-> & -> & -> & ->).
  rewrite !of_cons. cbn [fst snd]. unfold supd.
  destruct (bytes_eqb t (bstr "ftyp")) eqn:E1.
  { apply bytes_eqb_eq in E1. subst t. repeat split. }
  destruct (bytes_eqb t (bstr "mvhd")) eqn:E2.
  { apply bytes_eqb_eq in E2. subst t. repeat split. }
  destruct (bytes_eqb t (bstr "trex")) eqn:E3.
  { apply bytes_eqb_eq in E3. subst t. repeat split. }
  destruct (bytes_eqb t (bstr "trak")) eqn:E4.
  { apply bytes_eqb_eq in E4. subst t. repeat split. }
  repeat split.
Qed.
(** From two init segments of one track each, the joint one, if its size can be
    written. *)
Lemma C38_joint_pf : forall l1 l2 f m x1 x2 k1 k2,
  boxes_ok init_nodes decodable l1 -> boxes_ok init_nodes decodable l2 ->
  of_type (bstr "ftyp") (init_leaves l1) = [f] -> of_type (bstr "mvhd") (init_leaves l1) = [m] ->
  of_type (bstr "trex") (init_leaves l1) = [x1] -> of_type (bstr "trak") (init_leaves l1) = [k1] ->
  of_type (bstr "trex") (init_leaves l2) = [x2] -> of_type (bstr "trak") (init_leaves l2) = [k2] ->
  blen (encs (joint_init f m x1 x2 k1 k2)) < 4294967296 ->
  mux_inits (encs l1) (encs l2) = Ok (encs (joint_init f m x1 x2 k1 k2)).
Proof.
  intros l1 l2 f m x1 x2 k1 k2 O1 O2 F M X1 K1 X2 K2 SZ. unfold mux_inits. rewrite !istruct_run by auto. cbn [bind].
  destruct (sread_spec (init_leaves l1) istruct0) as (A1 & A2 & A3 & A4).
  destruct (sread_spec (init_leaves l2) istruct0) as (_ & _ & B3 & B4).
  rewrite F in A1. rewrite M in A2. rewrite X1 in A3. rewrite K1 in A4. rewrite X2 in B3. rewrite K2 in B4.
  unfold construct_muxed. rewrite A1, A2, A3, A4, B3, B4. cbn [slast fold_left some_box bind].
  assert (L : blen (encs (joint_init f m x1 x2 k1 k2)) = blen (enc (Leaf (bstr "ftyp") f)) + 8 + blen (enc (Leaf (bstr "mvhd") m)) +
    8 + blen (enc (Leaf (bstr "trex") x1)) + blen (enc (Leaf (bstr "trex") x2)) + blen (enc (Leaf (bstr "trak") k1)) + blen (enc (Leaf (bstr "trak") k2))).
  { unfold joint_init. cbn [encs]. rewrite !app_nil_r. rewrite blen_app. rewrite enc_node. cbn [encs]. rewrite enc_node. cbn [encs].
    rewrite !app_nil_r, !blen_app, !blen_be32, !blen_bstr. cbn [String.length]. lia. }
  assert (P := fun b => blen_nonneg (enc b)).
  assert (P1 := P (Leaf (bstr "ftyp") f)). assert (P2 := P (Leaf (bstr "mvhd") m)). assert (P3 := P (Leaf (bstr "trex") x1)).
  assert (P4 := P (Leaf (bstr "trex") x2)). assert (P5 := P (Leaf (bstr "trak") k1)). assert (P6 := P (Leaf (bstr "trak") k2)).
  rewrite (p32_ok (8 + _ + _ + _ + _)) by lia. cbn [bind]. rewrite p32_ok by lia. cbn [bind].
  f_equal. unfold joint_init. cbn [encs]. rewrite !app_nil_r. f_equal. rewrite enc_node. cbn [encs]. rewrite enc_node. cbn [encs].
  rewrite !app_nil_r. rewrite !be32_eq, !blen_app, !blen_be32, (blen_bstr "mvex"). cbn [String.length].
  rewrite <- !app_assoc.
  match goal with |- be32 ?a ++ _ ++ _ ++ be32 ?b ++ _ = be32 ?c ++ _ ++ _ ++ be32 ?d ++ _ =>
    replace a with c by lia; replace b with d by lia end.
  reflexivity.
Qed.
(** Each piece that is missing is an error. *)
Lemma C38_missing_pf : forall l1 l2, boxes_ok init_nodes decodable l1 -> boxes_ok init_nodes decodable l2 ->
  (exists t, In t [bstr "mvhd"; bstr "trex"; bstr "trak"] /\ of_type t (init_leaves l1) = []) \/
  (exists t, In t [bstr "trex"; bstr "trak"] /\ of_type t (init_leaves l2) = []) ->
  mux_inits (encs l1) (encs l2) = Err "TypeError".
Proof.
  intros l1 l2 O1 O2 H. unfold mux_inits. rewrite !istruct_run by auto. cbn [bind].
  destruct (sread_spec (init_leaves l1) istruct0) as (_ & A2 & A3 & A4).
  destruct (sread_spec (init_leaves l2) istruct0) as (_ & _ & B3 & B4).
  set (a := sread (init_leaves l1) istruct0) in *. set (b := sread (init_leaves l2) istruct0) in *.
  assert (N : it_mvhd a = None \/ it_trex a = None \/ it_trak a = None \/ it_trex b = None \/ it_trak b = None).
  { destruct H as [(t & I & E)|(t & I & E)]; cbn [In] in I.
    - destruct I as [<-|[<-|[<-|[]]]]; rewrite E in *; auto.
    - destruct I as [<-|[<-|[]]]; rewrite E in *; auto. }
  clearbody a b. unfold construct_muxed.
  destruct (it_trex a); [|reflexivity]. destruct (it_trex b); [|reflexivity].
  destruct (it_mvhd a); [|reflexivity]. destruct (it_trak a); [|reflexivity]. destruct (it_trak b); [|reflexivity].
  intuition discriminate.
Qed.
Definition ex_minit (id : Z) : list box :=
  [Leaf (bstr "ftyp") (bstr "iso6");
   Node (bstr "moov")
     [Leaf (bstr "mvhd") ([0; 0; 0; 0] ++ repeat 7 8 ++ [0; 0; 3; 232] ++ [0; 0; 1; 0] ++ repeat 9 8);
      Leaf (bstr "trak") [1; 2; 3; id];
      Node (bstr "mvex") [Leaf (bstr "trex") [0; 0; 0; 0; 0; 0; 0; id]]]].
Lemma ex_minit_ok : forall id, boxes_ok init_nodes decodable (ex_minit id).
Proof. intros id. unfold ex_minit. cbn [repeat app]. tree_tac; reflexivity. Qed.
Example C38_joint_case : exists f m x1 x2 k1 k2,
  boxes_ok init_nodes decodable (ex_minit 1) /\ boxes_ok init_nodes decodable (ex_minit 2) /\
  of_type (bstr "ftyp") (init_leaves (ex_minit 1)) = [f] /\ of_type (bstr "mvhd") (init_leaves (ex_minit 1)) = [m] /\
  of_type (bstr "trex") (init_leaves (ex_minit 1)) = [x1] /\ of_type (bstr "trak") (init_leaves (ex_minit 1)) = [k1] /\
  of_type (bstr "trex") (init_leaves (ex_minit 2)) = [x2] /\ of_type (bstr "trak") (init_leaves (ex_minit 2)) = [k2] /\
  x1 <> x2 /\ blen (encs (joint_init f m x1 x2 k1 k2)) < 4294967296.
Proof.
  do 6 eexists. split; [apply ex_minit_ok|]. split; [apply ex_minit_ok|]. do 6 (split; [reflexivity|]).
  split; [discriminate|vm_compute; reflexivity].
Qed.
Example C38_missing_case : boxes_ok init_nodes decodable (firstn 1 (ex_minit 1)) /\
  of_type (bstr "trak") (init_leaves (firstn 1 (ex_minit 1))) = [].
Proof. split; [cbn [firstn ex_minit]; tree_tac; reflexivity|reflexivity]. Qed.
(** The joint init segment is not made live: its movie header keeps the
    duration of the VoD file. *)
Lemma C38_live_refuted_pf : exists l1 l2 out, boxes_ok init_nodes decodable l1 /\ boxes_ok init_nodes decodable l2 /\
  mux_inits (encs l1) (encs l2) = Ok out /\ exists m tr,
  out = encs [Leaf (bstr "ftyp") (bstr "iso6"); Node (bstr "moov") (Leaf (bstr "mvhd") m :: tr)] /\ field 16 4 m = 256.
Proof.
  exists (ex_minit 1), (ex_minit 2). eexists. split; [apply ex_minit_ok|]. split; [apply ex_minit_ok|].
  split; [vm_compute; reflexivity|].
  exists ([0; 0; 0; 0] ++ repeat 7 8 ++ [0; 0; 3; 232] ++ [0; 0; 1; 0] ++ repeat 9 8),
    [Node (bstr "mvex") [Leaf (bstr "trex") [0; 0; 0; 0; 0; 0; 0; 1]; Leaf (bstr "trex") [0; 0; 0; 0; 0; 0; 0; 2]];
     Leaf (bstr "trak") [1; 2; 3; 1]; Leaf (bstr "trak") [1; 2; 3; 2]].
  split; vm_compute; reflexivity.
Qed.
(** Of several tracks in a file only the last is kept. *)
Lemma C38_all_tracks_refuted_pf : exists l1 l2 k k' x out, boxes_ok init_nodes decodable l1 /\ boxes_ok init_nodes decodable l2 /\
  of_type (bstr "trak") (init_leaves l1) = [k; k'] /\ k <> k' /\
  mux_inits (encs l1) (encs l2) = Ok out /\
  out = encs [Leaf (bstr "ftyp") []; Node (bstr "moov") [Leaf (bstr "mvhd") []; Node (bstr "mvex") [Leaf (bstr "trex") []; Leaf (bstr "trex") []];
        Leaf (bstr "trak") k'; Leaf (bstr "trak") x]].
Proof.
  exists [Leaf (bstr "ftyp") []; Node (bstr "moov") [Leaf (bstr "mvhd") []; Leaf (bstr "trak") [1]; Leaf (bstr "trak") [2]; Leaf (bstr "trex") []]],
    [Node (bstr "moov") [Leaf (bstr "trex") []; Leaf (bstr "trak") [3]]], [1], [2], [3].
  eexists. split; [tree_tac; reflexivity|]. split; [tree_tac; reflexivity|]. split; [reflexivity|]. split; [discriminate|].
  split; vm_compute; reflexivity.
Qed.
