(** The multiplexer's readers on trees. *)
From Coq Require Import ZifyBool ZifyNat.
From Verif Require Import Base BaseProofs BytesModel BytesProofs BoxSpec Mp4Model Mp4Proofs InitSpec InitProofs MuxModel MuxSpec MediaProofs MediaProofs2.
Open Scope Z_scope.

(** ** Media segments *)
Fixpoint visit (b : box) (path : bytes) (pos : Z) (s : mstruct) : result mstruct :=
  let* s1 := m_note (btype b) (enc b) pos s in
  if deeper (path_ext path (btype b)) then
    match b with
    | Leaf _ _ => Ok s1
    | Node t ks =>
        (fix go (l : list box) (pos : Z) (s : mstruct) : result mstruct :=
           match l with
           | [] => Ok s
           | k :: r => let* s2 := visit k (path_ext path t) pos s in go r (pos + blen (enc k)) s2
           end) ks (pos + 8) s1
    end
  else Ok s1.
Fixpoint visits (l : list box) (path : bytes) (pos : Z) (s : mstruct) : result mstruct :=
  match l with
  | [] => Ok s
  | k :: r => let* s2 := visit k path pos s in visits r path (pos + blen (enc k)) s2
  end.
Lemma visit_node : forall t ks path pos s, visit (Node t ks) path pos s =
  let* s1 := m_note t (enc (Node t ks)) pos s in
  if deeper (path_ext path t) then visits ks (path_ext path t) (pos + 8) s1 else Ok s1.
Proof.
  intros. cbn [visit btype]. destruct (m_note t (enc (Node t ks)) pos s) as [s1|]; [|reflexivity]. cbn [bind].
  destruct (deeper (path_ext path t)); [|reflexivity]. generalize (pos + 8). revert s1.
  induction ks as [|k ks IH]; intros s1 z; [reflexivity|]. cbn [visits]. destruct (visit k (path_ext path t) z s1); [|reflexivity].
  cbn [bind]. apply IH.
Qed.
Lemma visits_app : forall a b path pos s, visits (a ++ b) path pos s =
  let* s1 := visits a path pos s in visits b path (pos + blen (encs a)) s1.
Proof.
  induction a as [|k a IH]; intros; cbn [app visits encs bind].
  - rewrite blen_nil. f_equal. lia.
  - destruct (visit k path pos s) as [s1|]; [|reflexivity]. cbn [bind]. rewrite IH, blen_app.
    destruct (visits a path (pos + blen (enc k)) s1); [|reflexivity]. cbn [bind]. f_equal. lia.
Qed.

(** Only moof and traf are opened. *)
Lemma deeper_type : forall path t, blen t = 4 -> deeper (path_ext path t) = true -> In t moof_nodes.
Proof.
  intros path t L D. unfold deeper in D. apply (proj1 (bytes_in_iff _ _)) in D. unfold path_ext in D.
  destruct path as [|x path].
  - destruct D as [<-|[<-|[]]]; [left; reflexivity|]. cbn in L. lia.
  - destruct D as [D|[D|[]]].
    + assert (K := f_equal blen D). rewrite !blen_app, blen_cons, L in K. rewrite !blen_bstr in K. cbn [String.length] in K.
      assert (Q := blen_nonneg path). lia.
    + right. left. change (bstr "moof.traf") with (bstr "moof." ++ bstr "traf") in D. rewrite app_assoc in D.
      set (a := (x :: path) ++ bstr ".") in *. set (b := bstr "moof.") in *.
      assert (K := f_equal blen D). rewrite !blen_app, L, (blen_bstr "traf") in K. cbn [String.length] in K.
      assert (E : blen a = blen b) by lia.
      apply (f_equal (bdrop (blen b))) in D. rewrite bdrop_len in D. rewrite <- E in D. rewrite bdrop_len in D. auto.
Qed.

Definition lenc (b : box) : nat := List.length (enc b).
Lemma m_loop_tree : forall rec ks path,
  Forall (fun b => box_ok moof_nodes any_payload b -> forall fp s,
     rec (btype b) (enc b) fp path s = let* s1 := visit b path fp s in Ok (enc b, s1)) ks ->
  boxes_ok moof_nodes any_payload ks ->
  forall fuel pre fp s, (List.length (encs ks) < fuel)%nat ->
  m_loop rec fuel (pre ++ encs ks) fp (blen pre) pre path s =
  let* s1 := visits ks path (fp + blen pre) s in Ok (pre ++ encs ks, s1).
Proof.
  intros rec ks path. induction ks as [|k ks IH]; intros HF OK fuel pre fp s HL.
  - destruct fuel; [lia|]. cbn [m_loop encs]. rewrite app_nil_r, Z.ltb_irrefl. reflexivity.
  - destruct fuel as [|f]; [lia|]. cbn [encs] in *. destruct OK as [HK1 HK2]. inversion HF; subst.
    assert (T := box_ok_type _ _ _ HK1). assert (Z1 := blen_enc k T).
    cbn [m_loop].
    assert (B : blen pre <? blen (pre ++ enc k ++ encs ks) = true).
    { apply Z.ltb_lt. rewrite !blen_app. assert (Q1 := blen_nonneg (body k)).
      assert (Q2 := blen_nonneg (encs ks)). lia. }
    rewrite B.
    assert (C : bslice (blen pre) (blen pre + 8) (pre ++ enc k ++ encs ks) = btake 8 (enc k ++ encs ks)).
    { unfold bslice. rewrite bdrop_len. f_equal. lia. }
    rewrite C, (check_box_enc _ _ _ _ HK1). cbn [bind].
    rewrite bslice_mid by reflexivity. rewrite H1 by auto. cbn [visits].
    destruct (visit k path (fp + blen pre) s) as [s1|e]; [|reflexivity]. cbn [bind].
    replace (pre ++ enc k ++ encs ks) with ((pre ++ enc k) ++ encs ks) by (symmetry; apply app_assoc).
    replace (blen pre + blen (enc k)) with (blen (pre ++ enc k)) by apply blen_app.
    rewrite IH; auto.
    + rewrite blen_app. f_equal. f_equal. lia.
    + rewrite app_length in HL. unfold blen in Z1. lia.
Qed.
Lemma m_box_tree : forall b, box_ok moof_nodes any_payload b ->
  forall fuel fp path s, (List.length (enc b) < fuel)%nat ->
  m_filter_box fuel (btype b) (enc b) fp path s = let* s1 := visit b path fp s in Ok (enc b, s1).
Proof.
  induction b as [t p|t ks IH] using box_ind2; intros H fuel fp path s HL.
  - destruct fuel; [lia|]. cbn [m_filter_box btype visit].
    destruct (m_note t (enc (Leaf t p)) fp s) as [s1|]; [|reflexivity]. cbn [bind].
    destruct (deeper (path_ext path t)) eqn:D; [|reflexivity]. apply deeper_type in D; [|apply H].
    destruct H as (_ & H & _). contradiction.
  - assert (H' := H). apply box_ok_node in H. destruct H as (T & I & SZ & OK).
    destruct fuel as [|f]; [lia|]. cbn [m_filter_box btype]. rewrite visit_node.
    destruct (m_note t (enc (Node t ks)) fp s) as [s1|]; [|reflexivity]. cbn [bind].
    destruct (deeper (path_ext path t)) eqn:D; [|reflexivity].
    rewrite enc_node in *. rewrite app_assoc in *.
    set (hdr := be32 (8 + blen (encs ks)) ++ t) in *.
    assert (HH : blen hdr = 8) by (unfold hdr; rewrite blen_app, blen_be32; lia).
    assert (TK : btake 8 (hdr ++ encs ks) = hdr) by (rewrite <- HH; apply btake_len).
    rewrite TK. rewrite <- HH at 1. rewrite m_loop_tree; auto.
    + rewrite HH. reflexivity.
    + apply Forall_forall. intros b Hb OKb fp' s'.
      rewrite Forall_forall in IH. apply IH; auto.
      assert (LE : (List.length (enc b) <= List.length (encs ks))%nat).
      { clear -Hb. induction ks; [contradiction|]. cbn [encs]. rewrite app_length.
        destruct Hb as [->|Hb]; [lia|]. specialize (IHks Hb). lia. }
      rewrite app_length in HL. unfold blen in HH. lia.
    + rewrite app_length in HL. unfold blen in HH. lia.
Qed.
Fixpoint tvisits (l : list box) (pos : Z) (s : mstruct) : result mstruct :=
  match l with
  | [] => Ok s
  | k :: r =>
      let* s2 := if bytes_in (btype k) [bstr "styp"; bstr "moof"; bstr "mdat"] then visit k [] pos s else Ok s in
      tvisits r (pos + blen (enc k)) s2
  end.
Lemma m_top_tree : forall l fuel pre s, boxes_ok moof_nodes any_payload l -> (List.length (encs l) + 1 < fuel)%nat ->
  m_top fuel (pre ++ encs l) (blen pre) pre s = let* s1 := tvisits l (blen pre) s in Ok (pre ++ encs l, s1).
Proof.
  induction l as [|k l IH]; intros fuel pre s OK HL.
  - destruct fuel; [lia|]. cbn [m_top encs]. rewrite app_nil_r, Z.ltb_irrefl. reflexivity.
  - destruct fuel as [|f]; [lia|]. cbn [encs] in *. destruct OK as [HK1 HK2].
    assert (T := box_ok_type _ _ _ HK1). assert (Z1 := blen_enc k T).
    cbn [m_top].
    assert (B : blen pre <? blen (pre ++ enc k ++ encs l) = true).
    { apply Z.ltb_lt. rewrite !blen_app. assert (Q1 := blen_nonneg (body k)).
      assert (Q2 := blen_nonneg (encs l)). lia. }
    rewrite B.
    assert (C : bslice (blen pre) (blen pre + 8) (pre ++ enc k ++ encs l) = btake 8 (enc k ++ encs l)).
    { unfold bslice. rewrite bdrop_len. f_equal. lia. }
    rewrite C, (check_box_enc _ _ _ _ HK1). cbn [bind].
    rewrite bslice_mid by reflexivity. rewrite app_length in HL.
    assert (R : forall s1, m_top f (pre ++ enc k ++ encs l) (blen pre + blen (enc k)) (pre ++ enc k) s1 =
      let* s2 := tvisits l (blen pre + blen (enc k)) s1 in Ok (pre ++ enc k ++ encs l, s2)).
    { intros s1. replace (pre ++ enc k ++ encs l) with ((pre ++ enc k) ++ encs l) by (symmetry; apply app_assoc).
      rewrite <- blen_app. apply IH; auto. unfold blen in Z1. lia. }
    cbn [tvisits].
    match goal with |- (let* x := if ?b then _ else _ in _) = _ => destruct b end.
    + rewrite m_box_tree by (auto; unfold blen in Z1; lia). destruct (visit k [] (blen pre) s) as [s1|]; [|reflexivity].
      cbn [bind]. apply R.
    + cbn [bind]. apply R.
Qed.
Lemma read_tree : forall l, boxes_ok moof_nodes any_payload l -> read_mstruct (encs l) = tvisits l 0 mstruct0.
Proof.
  intros l OK. unfold read_mstruct. assert (K := m_top_tree l (enough (encs l)) [] mstruct0 OK).
  cbn [app] in K. rewrite blen_nil in K. rewrite K by (unfold enough; lia). destruct (tvisits l 0 mstruct0); reflexivity.
Qed.
Lemma tvisits_app : forall a b pos s, tvisits (a ++ b) pos s = let* s1 := tvisits a pos s in tvisits b (pos + blen (encs a)) s1.
Proof.
  induction a as [|k a IH]; intros; cbn [app tvisits encs].
  - rewrite blen_nil. cbn [bind]. f_equal. lia.
  - match goal with |- (let* x := ?v in _) = _ => destruct v as [s1|]; [|reflexivity] end. cbn [bind]. rewrite IH, blen_app.
    destruct (tvisits a (pos + blen (enc k)) s1); [|reflexivity]. cbn [bind]. f_equal. lia.
Qed.

(** Boxes without a role change nothing. *)
Lemma note_plain : forall t d pos s, ~ In t roles -> m_note t d pos s = Ok s.
Proof.
  intros t d pos s N. unfold m_note.
  assert (F : forall x, In x roles -> bytes_eqb t x = false).
  { intros x I. apply bytes_eqb_neq. intros ->. contradiction. }
  rewrite !F by (unfold roles; cbn [In]; tauto). reflexivity.
Qed.
Lemma top_plain : forall t, ~ In t roles -> bytes_in t [bstr "styp"; bstr "moof"; bstr "mdat"] = false.
Proof.
  intros t N. destruct (bytes_in _ _) eqn:E; [|reflexivity]. exfalso. apply N. apply (proj1 (bytes_in_iff _ _)) in E.
  unfold roles. cbn [In] in *. tauto.
Qed.
Lemma tvisits_plain : forall l pos s, Forall (fun b => ~ In (btype b) roles) l -> tvisits l pos s = Ok s.
Proof.
  induction l as [|k l IH]; intros pos s F; [reflexivity|]. inversion F; subst. cbn [tvisits]. rewrite top_plain by auto.
  cbn [bind]. auto.
Qed.
Lemma visits_plain : forall l path pos s, boxes_ok moof_nodes any_payload l -> Forall (fun b => ~ In (btype b) roles) l ->
  visits l path pos s = Ok s.
Proof.
  induction l as [|k l IH]; intros path pos s OK F; [reflexivity|]. inversion F; subst. destruct OK as [O1 O2]. cbn [visits].
  assert (E : visit k path pos s = Ok s).
  { assert (T := box_ok_type _ _ _ O1). destruct k as [t p|t ks]; cbn [btype] in *.
    - cbn [visit btype]. rewrite note_plain by auto. cbn [bind]. destruct (deeper _); reflexivity.
    - rewrite visit_node. rewrite note_plain by auto. cbn [bind].
      destruct (deeper (path_ext path t)) eqn:D; [|reflexivity]. apply deeper_type in D; auto.
      exfalso. apply H1. unfold moof_nodes, roles in *. cbn [In] in *. tauto. }
  rewrite E. cbn [bind]. apply IH; auto.
Qed.

(** ** One fragment *)
Lemma odd_flag : forall v f, 0 <= v < 256 -> 0 <= f < 16777216 -> Z.odd f = true ->
  (Z.land (Z.land (v * 16777216 + f) 16777215) 1 =? 0) = false.
Proof.
  intros v f V F O. change 16777215 with (Z.ones 24). rewrite Z.land_ones by lia.
  replace (v * 16777216 + f) with (f + v * 2 ^ 24) by (change (2 ^ 24) with 16777216; lia).
  rewrite Z_mod_plus_full. rewrite Z.mod_small by (change (2 ^ 24) with 16777216; lia).
  change 1 with (Z.ones 1). rewrite Z.land_ones by lia. change (2 ^ 1) with 2. rewrite Zmod_odd, O. reflexivity.
Qed.
Lemma run_len : forall f o, blen (fr_count f) = 4 -> blen (run_payload f o) = 12 + blen (fr_rest f).
Proof. intros f o C. unfold run_payload. rewrite !blen_app, !blen_be32, C. lia. Qed.
Lemma run_parse : forall f o pos s t, blen (fr_count f) = 4 -> 0 <= fr_version f < 256 -> 0 <= fr_flags f < 16777216 ->
  Z.odd (fr_flags f) = true -> 0 <= o < 4294967296 -> mt_traf_start s = Some t ->
  parse_trun (enc (Leaf (bstr "trun") (run_payload f o))) pos s =
  Ok (mk_mstruct (Some o) (Some (pos + 16 - t)) (Some t) (mt_styp s) (mt_mfhd s) (mt_traf s) (mt_moof s) (mt_mdat s)).
Proof.
  intros f o pos s t C V F O B T. unfold parse_trun. rewrite enc_leaf.
  assert (HL := hdr_len (8 + blen (run_payload f o)) (bstr "trun") ltac:(reflexivity)).
  set (h := be32 (8 + blen (run_payload f o)) ++ bstr "trun") in *. clearbody h.
  rewrite !(slice_hdr h _ HL) by lia. unfold run_payload.
  change (8 - 8) with 0. rewrite bslice_0. rewrite btake_len' by (rewrite blen_be32; lia).
  rewrite u32_ok by apply blen_be32. cbn [bind]. rewrite be32_val by lia.
  rewrite odd_flag by auto.
  rewrite (app_assoc (be32 _) (fr_count f)).
  rewrite (bslice_len' (16 - 8) (20 - 8) (be32 (fr_version f * 16777216 + fr_flags f) ++ fr_count f) (be32 o))
    by (rewrite ?blen_app, ?blen_be32, ?C; reflexivity).
  rewrite u32_ok by apply blen_be32. cbn [bind]. rewrite be32_val by lia. rewrite T. reflexivity.
Qed.
Definition traf_start_of (f : fragment) : Z := moof_at f + 8 + blen (enc (Leaf (bstr "mfhd") (fr_mfhd f))).
Definition moof_of (f : fragment) : box :=
  Node (bstr "moof") [Leaf (bstr "mfhd") (fr_mfhd f); traf_with f (fr_offset f)].
Definition in_traf (f : fragment) : Z := 24 + blen (encs (fr_kids1 f)).
Definition struct_of (f : fragment) : mstruct :=
  mk_mstruct (Some (fr_offset f)) (Some (in_traf f)) (Some (traf_start_of f))
    (Some (enc (Leaf (bstr "styp") (fr_styp f)))) (Some (enc (Leaf (bstr "mfhd") (fr_mfhd f))))
    (Some (enc (traf_with f (fr_offset f)))) (Some (enc (moof_of f)))
    (Some (enc (Leaf (bstr "mdat") (fr_mdat f)))).
Lemma visit_leaf : forall t p path pos s, visit (Leaf t p) path pos s = m_note t (enc (Leaf t p)) pos s.
Proof.
  intros. cbn [visit btype]. destruct (m_note t (enc (Leaf t p)) pos s); [|reflexivity]. cbn [bind].
  destruct (deeper _); reflexivity.
Qed.
Lemma boxes_ok_app : forall c lk a b, boxes_ok c lk (a ++ b) <-> boxes_ok c lk a /\ boxes_ok c lk b.
Proof. induction a; intros; cbn [app boxes_ok]; [tauto|]. rewrite IHa. tauto. Qed.
Lemma kids_ok : forall f, fragment_ok f -> boxes_ok moof_nodes any_payload (fr_kids1 f) /\ boxes_ok moof_nodes any_payload (fr_kids2 f).
Proof.
  intros f (OK & _). unfold seg_of in OK. apply boxes_ok_app in OK. destruct OK as [_ (M & _)].
  apply box_ok_node in M. destruct M as (_ & _ & _ & (_ & (T & _))). unfold traf_with in T. apply box_ok_node in T.
  destruct T as (_ & _ & _ & T). apply boxes_ok_app in T. destruct T as [T1 [_ T2]]. auto.
Qed.
Lemma note_styp : forall d p s, m_note (bstr "styp") d p s =
  Ok (mk_mstruct (mt_offset s) (mt_offset_in_traf s) (mt_traf_start s) (Some d) (mt_mfhd s) (mt_traf s) (mt_moof s) (mt_mdat s)).
Proof. reflexivity. Qed.
Lemma note_moof : forall d p s, m_note (bstr "moof") d p s =
  Ok (mk_mstruct (mt_offset s) (mt_offset_in_traf s) (mt_traf_start s) (mt_styp s) (mt_mfhd s) (mt_traf s) (Some d) (mt_mdat s)).
Proof. reflexivity. Qed.
Lemma note_mdat : forall d p s, m_note (bstr "mdat") d p s =
  Ok (mk_mstruct (mt_offset s) (mt_offset_in_traf s) (mt_traf_start s) (mt_styp s) (mt_mfhd s) (mt_traf s) (mt_moof s) (Some d)).
Proof. reflexivity. Qed.
Lemma note_mfhd : forall d p s, m_note (bstr "mfhd") d p s =
  Ok (mk_mstruct (mt_offset s) (mt_offset_in_traf s) (mt_traf_start s) (mt_styp s) (Some d) (mt_traf s) (mt_moof s) (mt_mdat s)).
Proof. reflexivity. Qed.
Lemma note_traf : forall d p s, m_note (bstr "traf") d p s =
  Ok (mk_mstruct (mt_offset s) (mt_offset_in_traf s) (Some p) (mt_styp s) (mt_mfhd s) (Some d) (mt_moof s) (mt_mdat s)).
Proof. reflexivity. Qed.
Lemma note_trun : forall d p s, m_note (bstr "trun") d p s = parse_trun d p s.
Proof. reflexivity. Qed.
Lemma tvisits_role : forall k l pos s, bytes_in (btype k) [bstr "styp"; bstr "moof"; bstr "mdat"] = true ->
  tvisits (k :: l) pos s = let* s2 := visit k [] pos s in tvisits l (pos + blen (enc k)) s2.
Proof. intros k l pos s H. cbn [tvisits]. rewrite H. reflexivity. Qed.
Lemma visit_moof : forall ks pos s, visit (Node (bstr "moof") ks) [] pos s =
  visits ks (bstr "moof") (pos + 8) (mk_mstruct (mt_offset s) (mt_offset_in_traf s) (mt_traf_start s) (mt_styp s) (mt_mfhd s) (mt_traf s)
    (Some (enc (Node (bstr "moof") ks))) (mt_mdat s)).
Proof. intros. rewrite visit_node, note_moof. reflexivity. Qed.
Lemma visit_traf : forall ks pos s, visit (Node (bstr "traf") ks) (bstr "moof") pos s =
  visits ks (bstr "moof.traf") (pos + 8) (mk_mstruct (mt_offset s) (mt_offset_in_traf s) (Some pos) (mt_styp s) (mt_mfhd s)
    (Some (enc (Node (bstr "traf") ks))) (mt_moof s) (mt_mdat s)).
Proof. intros. rewrite visit_node, note_traf. reflexivity. Qed.
Global Opaque m_note deeper path_ext.
Lemma read_fragment : forall f, fragment_ok f -> read_mstruct (encs (seg_of f)) = Ok (struct_of f).
Proof.
  intros f OK. destruct (kids_ok f OK) as [K1 K2]. destruct OK as (OK & P & V & F & O & C & B).
  rewrite read_tree by auto.
  rewrite !Forall_app in P. destruct P as (P1 & P2 & P3 & P4).
  assert (E1 : exists s, tvisits (before_moof f) 0 mstruct0 = Ok s /\
    s = mk_mstruct None None None (Some (enc (Leaf (bstr "styp") (fr_styp f)))) None None None None).
  { unfold before_moof. rewrite tvisits_app, tvisits_plain by auto. cbn [bind]. rewrite tvisits_role by reflexivity.
    rewrite visit_leaf, note_styp. cbn [bind]. rewrite tvisits_plain by auto. eexists. split; reflexivity. }
  destruct E1 as (s & E1 & S).
  unfold seg_of. rewrite tvisits_app, E1. cbn [bind]. fold (moof_at f). rewrite Z.add_0_l.
  assert (R : forall p, bytes_in (btype (Leaf (bstr "mdat") p)) [bstr "styp"; bstr "moof"; bstr "mdat"] = true) by reflexivity.
  assert (R' : forall p, bytes_in (btype (Node (bstr "moof") p)) [bstr "styp"; bstr "moof"; bstr "mdat"] = true) by reflexivity.
  rewrite tvisits_role by apply R'. rewrite visit_moof. cbn [visits]. rewrite visit_leaf, note_mfhd. cbn [bind].
  fold (moof_of f). fold (traf_start_of f).
  unfold traf_with. rewrite visit_traf. fold (traf_with f (fr_offset f)).
  rewrite visits_app, visits_plain by auto. cbn [bind visits]. rewrite visit_leaf, note_trun.
  rewrite (run_parse f (fr_offset f) _ _ (traf_start_of f)) by auto. cbn [bind]. rewrite visits_plain by auto. cbn [bind].
  rewrite tvisits_role by apply R. rewrite visit_leaf, note_mdat. cbn [bind tvisits mt_styp mt_moof mt_mdat mt_mfhd mt_traf mt_traf_start mt_offset mt_offset_in_traf].
  rewrite S. cbn [mt_styp]. unfold struct_of, in_traf.
  replace (traf_start_of f + 8 + blen (encs (fr_kids1 f)) + 16 - traf_start_of f) with (24 + blen (encs (fr_kids1 f))) by lia.
  reflexivity.
Qed.

Lemma traf_len : forall f o, blen (fr_count f) = 4 -> blen (enc (traf_with f o)) = blen (enc (traf_with f (fr_offset f))).
Proof.
  intros f o C. unfold traf_with. rewrite !enc_node, !encs_app. cbn [encs]. rewrite !enc_leaf, !blen_app, !blen_be32, !run_len by auto.
  reflexivity.
Qed.
Lemma traf_set : forall f o o', blen (fr_count f) = 4 -> 
  btake (in_traf f) (enc (traf_with f o)) ++ be32 o' ++ bdrop (in_traf f + 4) (enc (traf_with f o)) = enc (traf_with f o').
Proof.
  intros f o o' C. unfold traf_with at 3. rewrite enc_node. rewrite encs_app. cbn [encs].
  unfold traf_with. rewrite enc_node, encs_app. cbn [encs]. rewrite !enc_leaf, !run_len by auto.
  set (h := be32 (8 + (12 + blen (fr_rest f))) ++ bstr "trun").
  assert (H : blen h = 8) by (apply hdr_len; reflexivity).
  assert (L : forall o, blen (encs (fr_kids1 f) ++ (h ++ run_payload f o) ++ encs (fr_kids2 f)) =
     blen (encs (fr_kids1 f)) + (8 + (12 + blen (fr_rest f))) + blen (encs (fr_kids2 f))).
  { intros. rewrite !blen_app, run_len by auto. lia. }
  rewrite !L. unfold run_payload.
  set (w := be32 (8 + _)). assert (W : blen w = 4) by apply blen_be32.
  set (v := be32 (fr_version f * 16777216 + fr_flags f)). assert (VL : blen v = 4) by apply blen_be32.
  assert (A : forall o, w ++ bstr "traf" ++ encs (fr_kids1 f) ++ (h ++ v ++ fr_count f ++ be32 o ++ fr_rest f) ++ encs (fr_kids2 f)
    = (w ++ bstr "traf" ++ encs (fr_kids1 f) ++ h ++ v ++ fr_count f) ++ be32 o ++ fr_rest f ++ encs (fr_kids2 f)).
  { intros. rewrite <- !app_assoc. reflexivity. }
  rewrite !A.
  set (pre := w ++ bstr "traf" ++ encs (fr_kids1 f) ++ h ++ v ++ fr_count f).
  assert (PL : blen pre = in_traf f).
  { unfold pre, in_traf. rewrite !blen_app, W, H, VL, C, blen_bstr. cbn [String.length]. lia. }
  rewrite btake_len' by lia. rewrite (app_assoc pre (be32 o)). rewrite bdrop_len'; [reflexivity|]. rewrite blen_app, blen_be32. lia.
Qed.
