(** The parser of mp4.py on well-formed fragments. *)
From Coq Require Import ZifyBool ZifyNat.
From Verif Require Import Base BaseProofs BytesModel BytesProofs BoxSpec Mp4Proofs ChunkModel ChunkSpec.
From Verif Require MediaSpec.
Open Scope Z_scope.

(** *** Reading fields *)
Lemma slice_at : forall a x b p q, p = blen a -> q = blen a + blen x -> bslice p q (a ++ x ++ b) = x.
Proof. intros a x b p q -> ->. apply bslice_mid. lia. Qed.
Lemma u32_at_ok : forall a z b p, p = blen a -> 0 <= z < 4294967296 -> u32_at (a ++ be32 z ++ b) p = Ok z.
Proof.
  intros a z b p -> Z. unfold u32_at. rewrite slice_at by (rewrite ?blen_be32; reflexivity). rewrite u32_ok by apply blen_be32.
  rewrite be32_val by exact Z. reflexivity.
Qed.
Lemma u64_at_ok : forall a z b p, p = blen a -> 0 <= z < 18446744073709551616 -> u64_at (a ++ be64 z ++ b) p = Ok z.
Proof.
  intros a z b p -> Z. unfold u64_at. rewrite slice_at by (rewrite ?blen_be64; reflexivity). rewrite u64_ok by apply blen_be64.
  rewrite be64_val by exact Z. reflexivity.
Qed.
Lemma s32_at_ok : forall a z b p, p = blen a -> -2147483648 <= z < 2147483648 -> s32_at (a ++ be32 (z mod 4294967296) ++ b) p = Ok z.
Proof.
  intros a z b p -> Z. unfold s32_at. rewrite slice_at by (rewrite ?blen_be32; reflexivity). unfold str_to_sint32. rewrite blen_be32.
  rewrite be32_val by (apply Z.mod_pos_bound; lia). change (4 =? 4) with true. cbv beta iota zeta.
  destruct (Z_lt_ge_dec z 0).
  - replace (z mod 4294967296) with (z + 4294967296) by (apply Z.mod_unique with (-1); lia). replace (z + 4294967296 <? 2147483648) with false by lia. cbv iota. f_equal. lia.
  - rewrite Z.mod_small by lia. replace (z <? 2147483648) with true by lia. reflexivity.
Qed.
Lemma opt32_at : forall o a b p, p = blen a -> u32 o -> opt_at u32_at (has o) 4 (a ++ opt32 o ++ b) p = Ok (o, p + blen (opt32 o)).
Proof.
  intros [z|] a b p -> H; unfold opt_at, has, opt32; [|rewrite blen_nil, Z.add_0_r; reflexivity].
  rewrite u32_at_ok by (auto; exact H). cbn [bind]. rewrite blen_be32. reflexivity.
Qed.
Lemma opt64_at : forall o a b p, p = blen a -> within 0 18446744073709551616 o -> opt_at u64_at (has o) 8 (a ++ opt64 o ++ b) p = Ok (o, p + blen (opt64 o)).
Proof.
  intros [z|] a b p -> H; unfold opt_at, has, opt64; [|rewrite blen_nil, Z.add_0_r; reflexivity].
  rewrite u64_at_ok by (auto; exact H). cbn [bind]. rewrite blen_be64. reflexivity.
Qed.
Lemma opts32_at : forall o a b p, p = blen a -> within (-2147483648) 2147483648 o -> opt_at s32_at (has o) 4 (a ++ opt_s32 o ++ b) p = Ok (o, p + blen (opt_s32 o)).
Proof.
  intros [z|] a b p -> H; unfold opt_at, has, opt_s32; [|rewrite blen_nil, Z.add_0_r; reflexivity].
  rewrite s32_at_ok by (auto; exact H). cbn [bind]. rewrite blen_be32. reflexivity.
Qed.
Lemma full_at_ok : forall a v f b p, p + 8 = blen a -> 0 <= v < 256 -> 0 <= f < 16777216 -> full_at (a ++ be32 (v * 16777216 + f) ++ b) p = Ok (v, f).
Proof.
  intros a v f b p P V F. unfold full_at.
  assert (E : be32 (v * 16777216 + f) = [v] ++ [f / 65536 mod 256; f / 256 mod 256; f mod 256]).
  { unfold be32. cbn [app].
    assert (E1 : (v * 16777216 + f) / 16777216 = v) by (symmetry; apply Z.div_unique with f; lia).
    rewrite E1, (Z.mod_small v) by lia. f_equal.
    replace ((v * 16777216 + f) / 65536) with (v * 256 + f / 65536) by (replace (v * 16777216) with (v * 256 * 65536) by lia; rewrite Z.div_add_l by lia; reflexivity).
    replace ((v * 16777216 + f) / 256) with (v * 256 * 256 + f / 256) by (replace (v * 16777216) with (v * 256 * 256 * 256) by lia; rewrite Z.div_add_l by lia; reflexivity).
    replace (v * 16777216 + f) with (f + v * 65536 * 256) by lia. rewrite Z.mod_add by lia.
    rewrite (Z.add_comm (v * 256)), (Z.add_comm (v * 256 * 256)). rewrite !Z.mod_add by lia. reflexivity. }
  rewrite E. rewrite <- app_assoc.
  rewrite (slice_at a [v] _ (p + 8) (p + 9)) by (rewrite ?blen_cons, ?blen_nil; lia).
  cbn [byte_at]. unfold byte_at. cbn [Z.to_nat nth_error bind].
  rewrite (app_assoc a), (slice_at (a ++ [v]) _ _ (p + 9) (p + 12)) by (rewrite ?blen_app, ?blen_cons, ?blen_nil; lia).
  unfold str_to_sint32. cbn [blen List.length Z.of_nat Pos.of_succ_nat Pos.succ Z.eqb Pos.eqb].
  unfold blen. cbn [List.length]. change (Z.of_nat 4 =? 4) with true. cbv iota.
  assert (Q : be_val (0 :: [f / 65536 mod 256; f / 256 mod 256; f mod 256]) = f).
  { replace (0 :: [f / 65536 mod 256; f / 256 mod 256; f mod 256]) with (be32 f); [apply be32_val; lia|].
    unfold be32. rewrite (Z.div_small f) by lia. reflexivity. }
  rewrite Q. replace (f <? 2147483648) with true by lia. reflexivity.
Qed.

(** *** The boxes *)
(** The file around the payload of a box at position [o]. *)
Lemma tfhd_at_ok : forall h a b o, o + 8 = blen a -> head_ok h ->
  tfhd_at (a ++ head_payload h ++ b) o = Ok (mk_tfhd (th_track h) (th_base h) (th_dur h) (th_size h) (th_sflags h)).
Proof.
  intros h a b o O (V & F & T & B1 & B2 & B3 & B4 & B5 & C0 & C1 & C3 & C4 & C5).
  unfold tfhd_at, head_payload. set (w0 := be32 (th_version h * 16777216 + th_flags h)). set (w1 := be32 (th_track h)).
  assert (L0 : blen w0 = 4) by apply blen_be32. assert (L1 : blen w1 = 4) by apply blen_be32.
  rewrite <- !app_assoc. unfold w0. rewrite full_at_ok by assumption. fold w0. cbn [bind].
  rewrite C0, C1, C3, C4, C5.
  replace (a ++ w0 ++ w1 ++ opt64 (th_base h) ++ opt32 (th_desc h) ++ opt32 (th_dur h) ++ opt32 (th_size h) ++ opt32 (th_sflags h) ++ b)
    with ((a ++ w0 ++ w1) ++ opt64 (th_base h) ++ opt32 (th_desc h) ++ opt32 (th_dur h) ++ opt32 (th_size h) ++ opt32 (th_sflags h) ++ b)
    by (rewrite <- !app_assoc; reflexivity).
  rewrite opt64_at by first [assumption | clear - O L0 L1; rewrite !blen_app; lia]. cbn [bind].
  set (p1 := o + 16 + _). rewrite (app_assoc (a ++ w0 ++ w1)).
  rewrite opt32_at by first [assumption | clear - O L0 L1; unfold p1; rewrite !blen_app; lia]. cbn [bind].
  set (p2 := p1 + _). rewrite (app_assoc ((a ++ w0 ++ w1) ++ _)).
  rewrite opt32_at by first [assumption | clear - O L0 L1; unfold p2, p1; rewrite !blen_app; lia]. cbn [bind].
  set (p3 := p2 + _). rewrite (app_assoc (((a ++ w0 ++ w1) ++ _) ++ _)).
  rewrite opt32_at by first [assumption | clear - O L0 L1; unfold p3, p2, p1; rewrite !blen_app; lia]. cbn [bind].
  set (p4 := p3 + _). rewrite (app_assoc ((((a ++ w0 ++ w1) ++ _) ++ _) ++ _)).
  rewrite opt32_at by first [assumption | clear - O L0 L1; unfold p4, p3, p2, p1; rewrite !blen_app; lia]. cbn [bind].
  replace ((((((a ++ w0 ++ w1) ++ opt64 (th_base h)) ++ opt32 (th_desc h)) ++ opt32 (th_dur h)) ++ opt32 (th_size h)) ++ opt32 (th_sflags h) ++ b)
    with ((a ++ w0) ++ w1 ++ (opt64 (th_base h) ++ opt32 (th_desc h) ++ opt32 (th_dur h) ++ opt32 (th_size h) ++ opt32 (th_sflags h) ++ b))
    by (rewrite <- !app_assoc; reflexivity).
  unfold w1. rewrite u32_at_ok by first [assumption | clear - O L0 L1; rewrite blen_app; lia]. reflexivity.
Qed.
Lemma tfdt_at_ok : forall pl t a b o, o + 8 = blen a -> MediaSpec.decode_time pl t -> tfdt_at (a ++ pl ++ b) o = Ok t.
Proof.
  intros pl t a b o O H. unfold tfdt_at.
  assert (G : forall v f r, blen f = 3 -> full_at (a ++ (v :: f ++ r) ++ b) o = Ok (v, match str_to_sint32 (0 :: f) with Ok z => z | Err _ => 0 end)).
  { intros v f r F. unfold full_at. change (v :: f ++ r) with ([v] ++ f ++ r). rewrite <- !app_assoc.
    rewrite (slice_at a [v] _ (o + 8) (o + 9)) by (rewrite ?blen_cons, ?blen_nil; lia). unfold byte_at. cbn [Z.to_nat nth_error bind].
    rewrite (app_assoc a), (slice_at (a ++ [v]) f _ (o + 9) (o + 12)) by (rewrite ?blen_app, ?blen_cons, ?blen_nil; lia).
    unfold str_to_sint32. rewrite blen_cons, F. reflexivity. }
  inversion H as [f u F U E1 E2|v f u V F U E1 E2]; subst.
  - rewrite G by exact F. cbn [bind Z.eqb]. change (0 :: f ++ be32 t) with ([0] ++ f ++ be32 t). 
    replace (a ++ ([0] ++ f ++ be32 t) ++ b) with ((a ++ [0] ++ f) ++ be32 t ++ b) by (rewrite <- !app_assoc; reflexivity).
    apply u32_at_ok; [rewrite !blen_app, blen_cons, blen_nil; lia|exact U].
  - rewrite G by exact F. cbn [bind]. replace (v =? 0) with false by lia. change (v :: f ++ be64 t) with ([v] ++ f ++ be64 t). 
    replace (a ++ ([v] ++ f ++ be64 t) ++ b) with ((a ++ [v] ++ f) ++ be64 t ++ b) by (rewrite <- !app_assoc; reflexivity).
    apply u64_at_ok; [rewrite !blen_app, blen_cons, blen_nil; lia|exact U].
Qed.
(** Entries whose composition offset reads the same signed and unsigned. *)
Definition cto_ok (e : entry) : Prop := within (-2147483648) 2147483648 (en_cto e).
Definition row_of (e : entry) : row := mk_row (en_dur e) (en_size e) (en_flags e) (en_cto e).
Lemma row_at_ok : forall v f e a b p, p = blen a -> entry_ok v f e -> cto_ok e ->
  row_at f (a ++ entry_payload e ++ b) p = Ok (row_of e, p + blen (entry_payload e)).
Proof.
  intros v f e a b p P (U1 & U2 & U3 & _ & C8 & C9 & C10 & C11) C. unfold row_at, entry_payload. rewrite C8, C9, C10, C11. rewrite <- !app_assoc.
  rewrite opt32_at by auto. cbn [bind]. rewrite (app_assoc a). rewrite opt32_at by (auto; rewrite blen_app; lia). cbn [bind].
  rewrite (app_assoc (a ++ _)). rewrite opt32_at by (auto; rewrite !blen_app; lia). cbn [bind].
  rewrite (app_assoc ((a ++ _) ++ _)). rewrite opts32_at by (auto; rewrite !blen_app; lia). cbn [bind].
  rewrite !blen_app. do 2 f_equal. lia.
Qed.
Lemma rows_at_ok : forall v f l a b p, p = blen a -> Forall (entry_ok v f) l -> Forall cto_ok l ->
  rows_at (List.length l) f (a ++ List.concat (map entry_payload l) ++ b) p = Ok (map row_of l).
Proof.
  intros v f l. induction l as [|e l IH]; intros a b p P O C; [reflexivity|].
  inversion O; inversion C; subst. cbn [List.length rows_at map List.concat]. rewrite <- app_assoc.
  erewrite row_at_ok by eauto. cbn [bind]. rewrite (app_assoc a). rewrite IH; auto. rewrite blen_app. reflexivity.
Qed.
Definition table_at (r : run) (o : Z) : Z := o + 16 + blen (opt_s32 (rn_offset r)) + blen (opt32 (rn_first r)).
Lemma trun_at_ok : forall r a b o, o + 8 = blen a -> run_ok r -> Forall cto_ok (rn_entries r) ->
  trun_at (a ++ run_payload r ++ b) o = Ok (mk_trun (rn_flags r) (Z.of_nat (List.length (rn_entries r))) (rn_offset r) (table_at r o)).
Proof.
  intros r a b o O (V & F & B0 & B2 & C0 & C2 & N & E) C.
  unfold trun_at, run_payload. set (w0 := be32 (rn_version r * 16777216 + rn_flags r)). set (w1 := be32 (Z.of_nat (List.length (rn_entries r)))).
  assert (L0 : blen w0 = 4) by apply blen_be32. assert (L1 : blen w1 = 4) by apply blen_be32.
  rewrite <- !app_assoc. unfold w0. rewrite full_at_ok by assumption. fold w0. cbn [bind]. rewrite C0, C2.
  set (tb := List.concat _).
  replace (a ++ w0 ++ w1 ++ opt_s32 (rn_offset r) ++ opt32 (rn_first r) ++ tb ++ b)
    with ((a ++ w0 ++ w1) ++ opt_s32 (rn_offset r) ++ opt32 (rn_first r) ++ tb ++ b) by (rewrite <- !app_assoc; reflexivity).
  rewrite opts32_at by (auto; rewrite !blen_app; lia). cbn [bind]. rewrite (app_assoc (a ++ w0 ++ w1)).
  rewrite opt32_at by (auto; rewrite !blen_app; lia). cbn [bind].
  replace (((a ++ w0 ++ w1) ++ opt_s32 (rn_offset r)) ++ opt32 (rn_first r) ++ tb ++ b)
    with ((a ++ w0) ++ w1 ++ opt_s32 (rn_offset r) ++ opt32 (rn_first r) ++ tb ++ b) by (rewrite <- !app_assoc; reflexivity).
  unfold w1. rewrite u32_at_ok by (try lia; rewrite blen_app; lia). fold w1. cbn [bind].
  destruct (rn_entries r) as [|e l] eqn:EE; [cbn in N; lia|]. inversion E as [|? ? E1 E2]; inversion C as [|? ? D1 D2]; subst.
  destruct E1 as (U1 & U2 & U3 & _ & C8 & C9 & C10 & C11). rewrite C8, C9, C10, C11.
  unfold tb. cbn [map List.concat]. unfold entry_payload at 1.
  assert (W : forall o', (if has o' then 4 else 0) = blen (opt32 o')) by (intros [z|]; reflexivity). rewrite !W.
  replace ((a ++ w0) ++ w1 ++ opt_s32 (rn_offset r) ++ opt32 (rn_first r) ++
     ((opt32 (en_dur e) ++ opt32 (en_size e) ++ opt32 (en_flags e) ++ opt_s32 (en_cto e)) ++ List.concat (map entry_payload l)) ++ b)
    with ((a ++ w0 ++ w1 ++ opt_s32 (rn_offset r) ++ opt32 (rn_first r) ++ opt32 (en_dur e) ++ opt32 (en_size e) ++ opt32 (en_flags e)) ++
     opt_s32 (en_cto e) ++ (List.concat (map entry_payload l) ++ b)) by (rewrite <- !app_assoc; reflexivity).
  rewrite opts32_at; [reflexivity| |exact D1]. clear - O L0 L1. rewrite !blen_app, L0, L1. lia.
Qed.

(** *** Lists of boxes *)
(** Box [b] at position [pos] of the file, parsed as [im] after [before]. *)
Record item (data : bytes) (pos : Z) (before : list pbox) (b : box) (im : pbox) : Prop := {
  it_at : exists x y, data = x ++ enc b ++ y /\ blen x = pos;
  it_type : blen (btype b) = 4;
  it_size : blen (enc b) < 4294967296;
  it_utf8 : utf8_ok (btype b) = true;
  it_new : construct (btype b) data pos before = Ok tt;
  it_kids : exists kids, im = PBox (btype b) (blen (enc b)) pos kids /\
    if bytes_in (btype b) container_boxes
    then forall fuel, (List.length (body b) < fuel)%nat -> parse_kids fuel data (blen (enc b)) (pos + 8) (pos + blen (enc b)) [] = Ok kids
    else kids = []
}.
Inductive items (data : bytes) : Z -> list pbox -> list box -> list pbox -> Prop :=
| I_nil : forall pos before, items data pos before [] []
| I_cons : forall pos before b im l ims, item data pos before b im ->
    items data (pos + blen (enc b)) (before ++ [im]) l ims -> items data pos before (b :: l) (im :: ims).
Lemma items_app : forall data l1 ims1 pos before l2 ims2, items data pos before l1 ims1 ->
  items data (pos + blen (encs l1)) (before ++ ims1) l2 ims2 -> items data pos before (l1 ++ l2) (ims1 ++ ims2).
Proof.
  intros data l1 ims1 pos before l2 ims2 H. induction H as [pos before|pos before b im l ims I H IH]; intros G; cbn [app encs] in *.
  - rewrite blen_nil, Z.add_0_r, app_nil_r in G. exact G.
  - constructor; [exact I|]. apply IH. rewrite blen_app, Z.add_assoc in G. rewrite <- app_assoc. exact G.
Qed.
Lemma head_slice : forall x b y pos, blen x = pos -> blen (btype b) = 4 -> blen (enc b) < 4294967296 ->
  u32_at (x ++ enc b ++ y) pos = Ok (blen (enc b)) /\ bslice (pos + 4) (pos + 8) (x ++ enc b ++ y) = btype b.
Proof.
  intros x b y pos P T S. assert (L := blen_enc b T). rewrite enc_eq, <- !app_assoc. split.
  - rewrite L in S. rewrite u32_at_ok; [rewrite <- enc_eq, L; reflexivity|lia|]. assert (Q := blen_nonneg (body b)). lia.
  - rewrite (app_assoc x). apply slice_at; rewrite ?blen_app, ?blen_be32; lia.
Qed.
Lemma parse_items : forall data self pos before l ims, items data pos before l ims -> l <> [] ->
  Forall (fun b => blen (enc b) <= self) l -> forall fuel, (List.length (encs l) < fuel)%nat ->
  parse_kids fuel data self pos (pos + blen (encs l)) before = Ok (before ++ ims).
Proof.
  intros data self pos before l ims H. induction H as [pos before|pos before b im l ims I H IH]; intros N F fuel L; [contradiction|].
  destruct fuel as [|fuel]; [lia|]. cbn [parse_kids]. destruct I as [(x & y & E & P) T S U C (kids & K1 & K2)].
  inversion F as [|? ? F1 F2]; subst.
  destruct (head_slice x b y (blen x) eq_refl T S) as (E1 & E2).
  cbn [encs] in *. rewrite E1, E2. cbn [bind]. rewrite T. change (negb (4 =? 4)) with false. cbv iota.
  assert (B := blen_enc b T). assert (Q := blen_nonneg (body b)).
  replace (blen (enc b) =? 1) with false by lia. cbn [bind].
  replace ((self <? blen (enc b)) || (blen (enc b) <? 8)) with false by lia. rewrite U. cbn [negb]. rewrite C. cbn [bind].
  rewrite app_length in L.
  assert (LB : List.length (enc b) = (8 + List.length (body b))%nat) by (unfold blen in B; lia).
  assert (KK : (if bytes_in (btype b) container_boxes
           then parse_kids fuel (x ++ enc b ++ y) (blen (enc b)) (blen x + 8) (blen x + blen (enc b)) [] else Ok []) = Ok kids).
  { destruct (bytes_in (btype b) container_boxes); [apply K2; lia|rewrite K2; reflexivity]. }
  rewrite KK. cbn [bind]. rewrite blen_app.
  destruct l as [|b' l].
  - inversion H; subst. cbn [encs]. rewrite blen_nil. replace (blen x + (blen (enc b) + 0) <=? blen x + blen (enc b)) with true by lia. reflexivity.
  - assert (0 < blen (encs (b' :: l))).
    { inversion H as [|? ? ? ? ? ? I2 _]; subst. cbn [encs]. rewrite blen_app. assert (B2 := blen_enc b' (it_type _ _ _ _ _ I2)).
      assert (Q1 := blen_nonneg (body b')). assert (Q2 := blen_nonneg (encs l)). lia. }
    replace (blen x + (blen (enc b) + blen (encs (b' :: l))) <=? blen x + blen (enc b)) with false by lia.
    rewrite Z.add_assoc. rewrite IH; [rewrite <- app_assoc; reflexivity|discriminate|exact F2|lia].
Qed.

(** Inert boxes. *)
Definition im_of (pos : Z) (b : box) : pbox := PBox (btype b) (blen (enc b)) pos [].
Fixpoint ims_of (pos : Z) (l : list box) : list pbox :=
  match l with [] => [] | b :: r => im_of pos b :: ims_of (pos + blen (enc b)) r end.
Lemma opened_eq : container_boxes = opened.
Proof. reflexivity. Qed.
Lemma inert_item : forall b x y before, inert b -> box_ok opened any_payload b ->
  item (x ++ enc b ++ y) (blen x) before b (im_of (blen x) b).
Proof.
  intros [t p|t ks] x y before I O; [|contradiction]. destruct I as (I1 & I2). destruct O as (O1 & O2 & O3 & _).
  assert (NB : bytes_in t container_boxes = false).
  { rewrite opened_eq. destruct (bytes_in t opened) eqn:E; [|reflexivity]. apply bytes_in_iff in E. contradiction. }
  constructor; cbn [btype].
  - exists x, y. split; reflexivity.
  - exact O1.
  - rewrite blen_enc by exact O1. exact O3.
  - exact I2.
  - unfold construct.
    assert (G : forall u, In u [bstr "mfhd"; bstr "tfhd"; bstr "tfdt"; bstr "trun"] -> bytes_eqb t u = false).
    { intros u U. apply bytes_eqb_neq. intros ->. contradiction. }
    rewrite !G by (cbn; tauto). reflexivity.
  - exists []. split; [reflexivity|]. rewrite NB. reflexivity.
Qed.
Lemma inert_items : forall l x y before, Forall inert l -> boxes_ok opened any_payload l ->
  items (x ++ encs l ++ y) (blen x) before l (ims_of (blen x) l).
Proof.
  intros l. induction l as [|b l IH]; intros x y before F O; [constructor|].
  inversion F as [|? ? F1 F2]; subst. destruct O as (O1 & O2). cbn [encs ims_of].
  constructor.
  - rewrite <- app_assoc. apply inert_item; assumption.
  - replace (x ++ (enc b ++ encs l) ++ y) with ((x ++ enc b) ++ encs l ++ y) by (rewrite <- !app_assoc; reflexivity).
    rewrite <- blen_app. apply IH; assumption.
Qed.
Lemma inert_filter : forall t l pos, In (bstr t) [bstr "mfhd"; bstr "tfhd"; bstr "tfdt"; bstr "trun"] -> Forall inert l -> kids_of_type t (ims_of pos l) = [].
Proof.
  intros t l. induction l as [|b l IH]; intros pos T F; [reflexivity|]. inversion F as [|? ? F1 F2]; subst. cbn [ims_of kids_of_type filter p_type im_of].
  destruct b as [u p|]; [|contradiction]. destruct F1 as (F1 & _). cbn [btype].
  replace (bytes_eqb u (bstr t)) with false by (symmetry; apply bytes_eqb_neq; intros ->; contradiction). apply IH; assumption.
Qed.
Lemma inert_filter2 : forall t l pos, In (bstr t) opened -> Forall inert l -> boxes_ok opened any_payload l -> kids_of_type t (ims_of pos l) = [].
Proof.
  intros t l. induction l as [|b l IH]; intros pos T F O; [reflexivity|]. inversion F as [|? ? F1 F2]; subst. destruct O as (O1 & O2).
  cbn [ims_of kids_of_type filter p_type im_of].
  destruct b as [u p|]; [|contradiction]. destruct O1 as (_ & O1 & _). cbn [btype].
  replace (bytes_eqb u (bstr t)) with false by (symmetry; apply bytes_eqb_neq; intros ->; contradiction). apply IH; assumption.
Qed.

(** *** A fragment *)
Lemma leaf_item : forall t p data pos x y before, data = x ++ enc (Leaf t p) ++ y -> pos = blen x -> box_ok opened any_payload (Leaf t p) ->
  utf8_ok t = true -> construct t data pos before = Ok tt -> item data pos before (Leaf t p) (im_of pos (Leaf t p)).
Proof.
  intros t p data pos x y before E P (O1 & O2 & O3 & _) U C.
  assert (NB : bytes_in t container_boxes = false).
  { rewrite opened_eq. destruct (bytes_in t opened) eqn:B; [|reflexivity]. apply bytes_in_iff in B. contradiction. }
  constructor; cbn [btype].
  - exists x, y. split; [exact E|symmetry; exact P].
  - exact O1.
  - rewrite blen_enc by exact O1. exact O3.
  - exact U.
  - exact C.
  - exists []. split; [reflexivity|]. rewrite NB. reflexivity.
Qed.
Lemma node_item : forall t ks data pos x y before ims, data = x ++ enc (Node t ks) ++ y -> pos = blen x -> box_ok opened any_payload (Node t ks) ->
  utf8_ok t = true -> (forall d o b, construct t d o b = Ok tt) -> ks <> [] -> items data (pos + 8) [] ks ims ->
  item data pos before (Node t ks) (PBox t (blen (enc (Node t ks))) pos ims).
Proof.
  intros t ks data pos x y before ims E P O U C N I. assert (T := box_ok_type _ _ _ O). assert (S := box_ok_size _ _ _ O).
  apply box_ok_node in O. destruct O as (_ & O & _).
  constructor; cbn [btype].
  - exists x, y. split; [exact E|symmetry; exact P].
  - exact T.
  - exact S.
  - exact U.
  - apply C.
  - exists ims. split; [reflexivity|]. rewrite opened_eq. replace (bytes_in t opened) with true by (symmetry; apply bytes_in_iff; exact O).
    intros fuel L. cbn [body] in L. rewrite (blen_enc (Node t ks) T). cbn [body]. rewrite Z.add_assoc.
    rewrite (parse_items data (8 + blen (encs ks)) (pos + 8) [] ks ims I N); [reflexivity| |exact L].
    clear. induction ks as [|k ks IH]; constructor; cbn [encs].
    + rewrite blen_app. assert (Q := blen_nonneg (encs ks)). lia.
    + eapply Forall_impl; [|exact IH]. cbn beta. intros b H. rewrite blen_app. assert (Q := blen_nonneg (enc k)). lia.
Qed.
Lemma items_inert : forall l data x y pos before, data = x ++ encs l ++ y -> pos = blen x -> Forall inert l -> boxes_ok opened any_payload l ->
  items data pos before l (ims_of pos l).
Proof. intros l data x y pos before -> -> F O. apply inert_items; assumption. Qed.

Definition tfhd_leaf (f : frag) : box := Leaf (bstr "tfhd") (head_payload (f_head f)).
Definition tfdt_leaf (f : frag) : box := Leaf (bstr "tfdt") (f_tfdt f).
Definition trun_leaf (f : frag) : box := Leaf (bstr "trun") (run_payload (f_run f)).
Definition mfhd_leaf (f : frag) : box := Leaf (bstr "mfhd") (f_vf f ++ be32 (f_nr f)).
Definition moof_pos (f : frag) : Z := blen (encs (f_pre f)).
Definition mfhd_pos (f : frag) : Z := moof_pos f + 8 + blen (encs (f_a1 f)).
Definition traf_pos (f : frag) : Z := mfhd_pos f + blen (enc (mfhd_leaf f)) + blen (encs (f_a2 f)).
Definition tfhd_pos (f : frag) : Z := traf_pos f + 8 + blen (encs (f_k1 f)).
Definition tfdt_pos (f : frag) : Z := tfhd_pos f + blen (enc (tfhd_leaf f)) + blen (encs (f_k2 f)).
Definition trun_pos (f : frag) : Z := tfdt_pos f + blen (enc (tfdt_leaf f)) + blen (encs (f_k3 f)).
Definition traf_ims (f : frag) : list pbox :=
  ims_of (traf_pos f + 8) (f_k1 f) ++ im_of (tfhd_pos f) (tfhd_leaf f) ::
  ims_of (tfhd_pos f + blen (enc (tfhd_leaf f))) (f_k2 f) ++ im_of (tfdt_pos f) (tfdt_leaf f) ::
  ims_of (tfdt_pos f + blen (enc (tfdt_leaf f))) (f_k3 f) ++ im_of (trun_pos f) (trun_leaf f) ::
  ims_of (trun_pos f + blen (enc (trun_leaf f))) (f_k4 f).
Definition moof_ims (f : frag) : list pbox :=
  ims_of (moof_pos f + 8) (f_a1 f) ++ im_of (mfhd_pos f) (mfhd_leaf f) ::
  ims_of (mfhd_pos f + blen (enc (mfhd_leaf f))) (f_a2 f) ++
  PBox (bstr "traf") (blen (enc (f_traf f))) (traf_pos f) (traf_ims f) ::
  ims_of (traf_pos f + blen (enc (f_traf f))) (f_a3 f).
Definition top_ims (f : frag) : list pbox :=
  ims_of 0 (f_pre f) ++ PBox (bstr "moof") (blen (enc (f_moof f))) (moof_pos f) (moof_ims f) ::
  ims_of (moof_pos f + blen (enc (f_moof f))) (f_post f).

(** The file before and after each payload. *)
Definition hd8 (b : box) : bytes := be32 (8 + blen (body b)) ++ btype b.
Lemma enc_hd : forall b, enc b = hd8 b ++ body b.
Proof. intros. rewrite enc_eq. unfold hd8. rewrite <- app_assoc. reflexivity. Qed.
Lemma blen_hd : forall b, blen (btype b) = 4 -> blen (hd8 b) = 8.
Proof. intros. unfold hd8. rewrite blen_app, blen_be32. lia. Qed.
Definition in_moof (f : frag) : bytes := encs (f_pre f) ++ hd8 (f_moof f).
Definition to_mfhd (f : frag) : bytes := in_moof f ++ encs (f_a1 f).
Definition to_traf (f : frag) : bytes := to_mfhd f ++ enc (mfhd_leaf f) ++ encs (f_a2 f).
Definition in_traf (f : frag) : bytes := to_traf f ++ hd8 (f_traf f).
Definition to_tfhd (f : frag) : bytes := in_traf f ++ encs (f_k1 f).
Definition to_tfdt (f : frag) : bytes := to_tfhd f ++ enc (tfhd_leaf f) ++ encs (f_k2 f).
Definition to_trun (f : frag) : bytes := to_tfdt f ++ enc (tfdt_leaf f) ++ encs (f_k3 f).
Definition of_moof (f : frag) : bytes := encs (f_post f).
Definition of_traf (f : frag) : bytes := encs (f_a3 f) ++ of_moof f.
Definition of_trun (f : frag) : bytes := encs (f_k4 f) ++ of_traf f.
Lemma len_in_moof : forall f, blen (in_moof f) = moof_pos f + 8.
Proof. intros. unfold in_moof, moof_pos. rewrite blen_app, blen_hd; reflexivity. Qed.
Lemma len_to_mfhd : forall f, blen (to_mfhd f) = mfhd_pos f.
Proof. intros. unfold to_mfhd, mfhd_pos. rewrite blen_app, len_in_moof. reflexivity. Qed.
Lemma len_to_traf : forall f, blen (to_traf f) = traf_pos f.
Proof. intros. unfold to_traf, traf_pos. rewrite !blen_app, len_to_mfhd. lia. Qed.
Lemma len_in_traf : forall f, blen (in_traf f) = traf_pos f + 8.
Proof. intros. unfold in_traf. rewrite blen_app, len_to_traf, blen_hd; reflexivity. Qed.
Lemma len_to_tfhd : forall f, blen (to_tfhd f) = tfhd_pos f.
Proof. intros. unfold to_tfhd, tfhd_pos. rewrite blen_app, len_in_traf. reflexivity. Qed.
Lemma len_to_tfdt : forall f, blen (to_tfdt f) = tfdt_pos f.
Proof. intros. unfold to_tfdt, tfdt_pos. rewrite !blen_app, len_to_tfhd. lia. Qed.
Lemma len_to_trun : forall f, blen (to_trun f) = trun_pos f.
Proof. intros. unfold to_trun, trun_pos. rewrite !blen_app, len_to_tfdt. lia. Qed.
Lemma file_moof : forall f, encs (f_boxes f) = encs (f_pre f) ++ enc (f_moof f) ++ of_moof f.
Proof. intros. unfold f_boxes. rewrite encs_app. reflexivity. Qed.
Lemma moof_body : forall f, body (f_moof f) = encs (f_a1 f) ++ enc (mfhd_leaf f) ++ encs (f_a2 f) ++ enc (f_traf f) ++ encs (f_a3 f).
Proof. intros. unfold f_moof. cbn [body]. rewrite encs_app. cbn [encs]. rewrite encs_app. reflexivity. Qed.
Lemma traf_body : forall f, body (f_traf f) = encs (f_k1 f) ++ enc (tfhd_leaf f) ++ encs (f_k2 f) ++ enc (tfdt_leaf f) ++ encs (f_k3 f) ++ enc (trun_leaf f) ++ encs (f_k4 f).
Proof. intros. unfold f_traf. cbn [body]. rewrite encs_app. cbn [encs]. rewrite encs_app. cbn [encs]. rewrite encs_app. reflexivity. Qed.
Lemma file_in_moof : forall f, encs (f_boxes f) = in_moof f ++ encs (f_a1 f) ++ enc (mfhd_leaf f) ++ encs (f_a2 f) ++ enc (f_traf f) ++ of_traf f.
Proof. intros. rewrite file_moof, enc_hd, moof_body. unfold in_moof, of_traf. rewrite <- !app_assoc. reflexivity. Qed.
Lemma file_mfhd : forall f, encs (f_boxes f) = to_mfhd f ++ enc (mfhd_leaf f) ++ encs (f_a2 f) ++ enc (f_traf f) ++ of_traf f.
Proof. intros. rewrite file_in_moof. unfold to_mfhd. rewrite <- !app_assoc. reflexivity. Qed.
Lemma file_traf : forall f, encs (f_boxes f) = to_traf f ++ enc (f_traf f) ++ of_traf f.
Proof. intros. rewrite file_mfhd. unfold to_traf. rewrite <- !app_assoc. reflexivity. Qed.
Lemma file_in_traf : forall f, encs (f_boxes f) = in_traf f ++ encs (f_k1 f) ++ enc (tfhd_leaf f) ++ encs (f_k2 f) ++ enc (tfdt_leaf f) ++ encs (f_k3 f) ++ enc (trun_leaf f) ++ of_trun f.
Proof. intros. rewrite file_traf, enc_hd, traf_body. unfold in_traf, of_trun. rewrite <- !app_assoc. reflexivity. Qed.
Lemma file_tfhd : forall f, encs (f_boxes f) = to_tfhd f ++ enc (tfhd_leaf f) ++ encs (f_k2 f) ++ enc (tfdt_leaf f) ++ encs (f_k3 f) ++ enc (trun_leaf f) ++ of_trun f.
Proof. intros. rewrite file_in_traf. unfold to_tfhd. rewrite <- !app_assoc. reflexivity. Qed.
Lemma file_tfdt : forall f, encs (f_boxes f) = to_tfdt f ++ enc (tfdt_leaf f) ++ encs (f_k3 f) ++ enc (trun_leaf f) ++ of_trun f.
Proof. intros. rewrite file_tfhd. unfold to_tfdt. rewrite <- !app_assoc. reflexivity. Qed.
Lemma file_trun : forall f, encs (f_boxes f) = to_trun f ++ enc (trun_leaf f) ++ of_trun f.
Proof. intros. rewrite file_tfdt. unfold to_trun. rewrite <- !app_assoc. reflexivity. Qed.

Lemma boxes_ok_app : forall c lk a b, boxes_ok c lk (a ++ b) <-> boxes_ok c lk a /\ boxes_ok c lk b.
Proof. intros c lk a b. induction a as [|x a IH]; cbn [app boxes_ok]; tauto. Qed.
Record frag_parts (f : frag) : Prop := {
  fp_pre : Forall inert (f_pre f) /\ boxes_ok opened any_payload (f_pre f);
  fp_a1 : Forall inert (f_a1 f) /\ boxes_ok opened any_payload (f_a1 f);
  fp_a2 : Forall inert (f_a2 f) /\ boxes_ok opened any_payload (f_a2 f);
  fp_a3 : Forall inert (f_a3 f) /\ boxes_ok opened any_payload (f_a3 f);
  fp_k1 : Forall inert (f_k1 f) /\ boxes_ok opened any_payload (f_k1 f);
  fp_k2 : Forall inert (f_k2 f) /\ boxes_ok opened any_payload (f_k2 f);
  fp_k3 : Forall inert (f_k3 f) /\ boxes_ok opened any_payload (f_k3 f);
  fp_k4 : Forall inert (f_k4 f) /\ boxes_ok opened any_payload (f_k4 f);
  fp_post : Forall inert (f_post f) /\ boxes_ok opened any_payload (f_post f);
  fp_moof : box_ok opened any_payload (f_moof f);
  fp_traf : box_ok opened any_payload (f_traf f);
  fp_mfhd : box_ok opened any_payload (mfhd_leaf f);
  fp_tfhd : box_ok opened any_payload (tfhd_leaf f);
  fp_tfdt : box_ok opened any_payload (tfdt_leaf f);
  fp_trun : box_ok opened any_payload (trun_leaf f)
}.
Lemma frag_parts_ok : forall f, frag_ok f -> frag_parts f.
Proof.
  intros f (O & I & _). rewrite !Forall_app in I. destruct I as (I0 & I1 & I2 & I3 & I4 & I5 & I6 & I7 & I8).
  unfold f_boxes in O. apply boxes_ok_app in O. destruct O as (O0 & OM & O8).
  assert (OM' := OM). unfold f_moof in OM'. apply box_ok_node in OM'. destruct OM' as (_ & _ & _ & M).
  apply boxes_ok_app in M. destruct M as (O1 & OF & M). apply boxes_ok_app in M. destruct M as (O2 & OT & O7).
  assert (OT' := OT). unfold f_traf in OT'. apply box_ok_node in OT'. destruct OT' as (_ & _ & _ & T).
  apply boxes_ok_app in T. destruct T as (O3 & OH & T). apply boxes_ok_app in T. destruct T as (O4 & OD & T). apply boxes_ok_app in T. destruct T as (O5 & OR & O6).
  exact (Build_frag_parts f (conj I0 O0) (conj I1 O1) (conj I2 O2) (conj I7 O7) (conj I3 O3) (conj I4 O4) (conj I5 O5) (conj I6 O6) (conj I8 O8) OM OT OF OH OD OR).
Qed.

(** The parse of a fragment. *)
Section Parse.
  Context (f : frag).
  Hypothesis (OK : frag_ok f) (CT : Forall cto_ok (rn_entries (f_run f))).
  Variable time : Z.
  Hypothesis DT : MediaSpec.decode_time (f_tfdt f) time.
  Let data := encs (f_boxes f).

  Lemma read_tfhd : tfhd_at data (tfhd_pos f) =
    Ok (mk_tfhd (th_track (f_head f)) (th_base (f_head f)) (th_dur (f_head f)) (th_size (f_head f)) (th_sflags (f_head f))).
  Proof.
    unfold data. rewrite file_tfhd, enc_hd. cbn [tfhd_leaf body]. rewrite <- app_assoc, (app_assoc (to_tfhd f)).
    apply tfhd_at_ok; [|apply OK]. rewrite blen_app, len_to_tfhd, blen_hd; reflexivity.
  Qed.
  Lemma read_tfdt : tfdt_at data (tfdt_pos f) = Ok time.
  Proof.
    unfold data. rewrite file_tfdt, enc_hd. cbn [tfdt_leaf body]. rewrite <- app_assoc, (app_assoc (to_tfdt f)).
    apply tfdt_at_ok; [|exact DT]. rewrite blen_app, len_to_tfdt, blen_hd; reflexivity.
  Qed.
  Lemma read_trun : trun_at data (trun_pos f) =
    Ok (mk_trun (rn_flags (f_run f)) (Z.of_nat (List.length (rn_entries (f_run f)))) (rn_offset (f_run f)) (table_at (f_run f) (trun_pos f))).
  Proof.
    unfold data. rewrite file_trun, enc_hd. cbn [trun_leaf body]. rewrite <- app_assoc, (app_assoc (to_trun f)).
    apply trun_at_ok; [|apply OK|exact CT]. rewrite blen_app, len_to_trun, blen_hd; reflexivity.
  Qed.
  Lemma read_nr : u32_at data (mfhd_pos f + 12) = Ok (f_nr f).
  Proof.
    destruct OK as (_ & _ & V & N & _).
    assert (E : data = (to_mfhd f ++ hd8 (mfhd_leaf f) ++ f_vf f) ++ be32 (f_nr f) ++ encs (f_a2 f) ++ enc (f_traf f) ++ of_traf f).
    { unfold data. rewrite file_mfhd, (enc_hd (mfhd_leaf f)). cbn [mfhd_leaf body]. rewrite <- !app_assoc. reflexivity. }
    rewrite E. apply u32_at_ok; [|exact N].
    rewrite !blen_app, len_to_mfhd, blen_hd by reflexivity. lia.
  Qed.
  Lemma read_track : u32_at data (tfhd_pos f + 12) = Ok (th_track (f_head f)).
  Proof.
    destruct OK as (_ & _ & _ & _ & (_ & _ & T & _) & _).
    set (h := f_head f) in *.
    set (r := opt64 (th_base h) ++ opt32 (th_desc h) ++ opt32 (th_dur h) ++ opt32 (th_size h) ++ opt32 (th_sflags h)).
    set (q := encs (f_k2 f) ++ enc (tfdt_leaf f) ++ encs (f_k3 f) ++ enc (trun_leaf f) ++ of_trun f).
    assert (E : data = (to_tfhd f ++ hd8 (tfhd_leaf f) ++ be32 (th_version h * 16777216 + th_flags h)) ++ be32 (th_track h) ++ r ++ q).
    { unfold data. rewrite file_tfhd, (enc_hd (tfhd_leaf f)). change (body (tfhd_leaf f)) with (be32 (th_version h * 16777216 + th_flags h) ++ be32 (th_track h) ++ r).
      fold q. rewrite <- !app_assoc. reflexivity. }
    rewrite E. apply u32_at_ok; [|exact T].
    rewrite !blen_app, len_to_tfhd, blen_hd by reflexivity. rewrite blen_be32. lia.
  Qed.
  Lemma read_rows : rows_at (List.length (rn_entries (f_run f))) (rn_flags (f_run f)) data (table_at (f_run f) (trun_pos f)) = Ok (map row_of (rn_entries (f_run f))).
  Proof.
    destruct OK as (_ & _ & _ & _ & _ & (_ & _ & _ & _ & _ & _ & _ & E)).
    set (r := f_run f) in *. set (w0 := be32 (rn_version r * 16777216 + rn_flags r)). set (w1 := be32 (Z.of_nat (List.length (rn_entries r)))).
    assert (Q : data = (to_trun f ++ hd8 (trun_leaf f) ++ w0 ++ w1 ++ opt_s32 (rn_offset r) ++ opt32 (rn_first r)) ++ List.concat (map entry_payload (rn_entries r)) ++ of_trun f).
    { unfold data. rewrite file_trun, (enc_hd (trun_leaf f)).
      change (body (trun_leaf f)) with (w0 ++ w1 ++ opt_s32 (rn_offset r) ++ opt32 (rn_first r) ++ List.concat (map entry_payload (rn_entries r))).
      rewrite <- !app_assoc. reflexivity. }
    rewrite Q. eapply rows_at_ok; [|exact E|exact CT].
    unfold table_at. rewrite !blen_app, len_to_trun. rewrite blen_hd by reflexivity. unfold w0, w1. rewrite !blen_be32. lia.
  Qed.

  Lemma traf_items : items data (traf_pos f + 8) [] (f_k1 f ++ tfhd_leaf f :: f_k2 f ++ tfdt_leaf f :: f_k3 f ++ trun_leaf f :: f_k4 f) (traf_ims f).
  Proof.
    destruct (frag_parts_ok f OK) as [FP FA1 FA2 FA3 FK1 FK2 FK3 FK4 FPO FM FT FMF FH FD FR].
    unfold traf_ims.
    apply items_app.
    { apply items_inert with (in_traf f) (enc (tfhd_leaf f) ++ encs (f_k2 f) ++ enc (tfdt_leaf f) ++ encs (f_k3 f) ++ enc (trun_leaf f) ++ of_trun f);
        [apply file_in_traf|rewrite len_in_traf; reflexivity|apply FK1|apply FK1]. }
    cbn [app]. change (traf_pos f + 8 + blen (encs (f_k1 f))) with (tfhd_pos f).
    constructor.
    { eapply leaf_item; [apply file_tfhd|symmetry; apply len_to_tfhd|exact FH|reflexivity|].
      unfold construct. change (bytes_eqb (bstr "tfhd") (bstr "mfhd")) with false. change (bytes_eqb (bstr "tfhd") (bstr "tfhd")) with true. cbv iota.
      rewrite read_tfhd. reflexivity. }
    apply items_app.
    { apply items_inert with (to_tfhd f ++ enc (tfhd_leaf f)) (enc (tfdt_leaf f) ++ encs (f_k3 f) ++ enc (trun_leaf f) ++ of_trun f);
        [unfold data; rewrite file_tfhd, <- app_assoc; reflexivity|rewrite blen_app, len_to_tfhd; reflexivity|apply FK2|apply FK2]. }
    change (tfhd_pos f + blen (enc (tfhd_leaf f)) + blen (encs (f_k2 f))) with (tfdt_pos f).
    constructor.
    { eapply leaf_item; [apply file_tfdt|symmetry; apply len_to_tfdt|exact FD|reflexivity|].
      unfold construct. change (bytes_eqb (bstr "tfdt") (bstr "mfhd")) with false. change (bytes_eqb (bstr "tfdt") (bstr "tfhd")) with false.
      change (bytes_eqb (bstr "tfdt") (bstr "tfdt")) with true. cbv iota. rewrite read_tfdt. reflexivity. }
    apply items_app.
    { apply items_inert with (to_tfdt f ++ enc (tfdt_leaf f)) (enc (trun_leaf f) ++ of_trun f);
        [unfold data; rewrite file_tfdt, <- app_assoc; reflexivity|rewrite blen_app, len_to_tfdt; reflexivity|apply FK3|apply FK3]. }
    change (tfdt_pos f + blen (enc (tfdt_leaf f)) + blen (encs (f_k3 f))) with (trun_pos f).
    constructor.
    { eapply leaf_item; [apply file_trun|symmetry; apply len_to_trun|exact FR|reflexivity|].
      unfold construct. change (bytes_eqb (bstr "trun") (bstr "mfhd")) with false. change (bytes_eqb (bstr "trun") (bstr "tfhd")) with false.
      change (bytes_eqb (bstr "trun") (bstr "tfdt")) with false. change (bytes_eqb (bstr "trun") (bstr "trun")) with true. cbv iota.
      rewrite read_trun. cbn [bind t_flags]. destruct (Z.testbit (rn_flags (f_run f)) 8); [reflexivity|].
      assert (Q : existsb (fun b => bytes_eqb (p_type b) (bstr "tfhd"))
        (((((ims_of (traf_pos f + 8) (f_k1 f) ++ [im_of (tfhd_pos f) (tfhd_leaf f)]) ++ ims_of (tfhd_pos f + blen (enc (tfhd_leaf f))) (f_k2 f)) ++
         [im_of (tfdt_pos f) (tfdt_leaf f)])) ++ ims_of (tfdt_pos f + blen (enc (tfdt_leaf f))) (f_k3 f)) = true).
      { apply existsb_exists. exists (im_of (tfhd_pos f) (tfhd_leaf f)). split; [|reflexivity]. rewrite !in_app_iff. left. left. left. right. left. reflexivity. }
      rewrite Q.
      destruct (((((ims_of (traf_pos f + 8) (f_k1 f) ++ [im_of (tfhd_pos f) (tfhd_leaf f)]) ++ ims_of (tfhd_pos f + blen (enc (tfhd_leaf f))) (f_k2 f)) ++
         [im_of (tfdt_pos f) (tfdt_leaf f)])) ++ ims_of (tfdt_pos f + blen (enc (tfdt_leaf f))) (f_k3 f)); [discriminate|reflexivity]. }
    apply items_inert with (to_trun f ++ enc (trun_leaf f)) (of_traf f);
      [unfold data; rewrite file_trun, <- app_assoc; unfold of_trun; reflexivity|rewrite blen_app, len_to_trun; reflexivity|apply FK4|apply FK4].
  Qed.
  Lemma construct_other : forall t d o b, ~ In t [bstr "mfhd"; bstr "tfhd"; bstr "tfdt"; bstr "trun"] -> construct t d o b = Ok tt.
  Proof.
    intros t d o b N. unfold construct.
    assert (G : forall u, In u [bstr "mfhd"; bstr "tfhd"; bstr "tfdt"; bstr "trun"] -> bytes_eqb t u = false).
    { intros u U. apply bytes_eqb_neq. intros ->. contradiction. }
    rewrite !G by (cbn; tauto). reflexivity.
  Qed.
  Lemma moof_items : items data (moof_pos f + 8) [] (f_a1 f ++ mfhd_leaf f :: f_a2 f ++ f_traf f :: f_a3 f) (moof_ims f).
  Proof.
    destruct (frag_parts_ok f OK) as [FP FA1 FA2 FA3 FK1 FK2 FK3 FK4 FPO FM FT FMF FH FD FR].
    unfold moof_ims.
    apply items_app.
    { eapply items_inert; [apply file_in_moof|rewrite len_in_moof; reflexivity|apply FA1|apply FA1]. }
    change (moof_pos f + 8 + blen (encs (f_a1 f))) with (mfhd_pos f).
    constructor.
    { eapply leaf_item; [apply file_mfhd|symmetry; apply len_to_mfhd|exact FMF|reflexivity|].
      unfold construct. change (bytes_eqb (bstr "mfhd") (bstr "mfhd")) with true. cbv iota. rewrite read_nr. reflexivity. }
    apply items_app.
    { apply items_inert with (to_mfhd f ++ enc (mfhd_leaf f)) (enc (f_traf f) ++ of_traf f);
        [unfold data; rewrite file_mfhd, <- app_assoc; reflexivity|rewrite blen_app, len_to_mfhd; reflexivity|apply FA2|apply FA2]. }
    change (mfhd_pos f + blen (enc (mfhd_leaf f)) + blen (encs (f_a2 f))) with (traf_pos f).
    constructor.
    { unfold f_traf. eapply node_item; [apply file_traf|symmetry; apply len_to_traf|exact FT|reflexivity| | |apply traf_items].
      - intros. apply construct_other. intros [A|[A|[A|[A|[]]]]]; discriminate A.
      - destruct (f_k1 f); discriminate. }
    apply items_inert with (to_traf f ++ enc (f_traf f)) (of_moof f);
      [unfold data; rewrite file_traf, <- app_assoc; unfold of_traf; reflexivity|rewrite blen_app, len_to_traf; reflexivity|apply FA3|apply FA3].
  Qed.
  Lemma top_items : items data 0 [] (f_boxes f) (top_ims f).
  Proof.
    destruct (frag_parts_ok f OK) as [FP FA1 FA2 FA3 FK1 FK2 FK3 FK4 FPO FM FT FMF FH FD FR].
    unfold f_boxes, top_ims.
    apply items_app.
    { apply items_inert with [] (enc (f_moof f) ++ of_moof f); [apply file_moof|reflexivity|apply FP|apply FP]. }
    change (0 + blen (encs (f_pre f))) with (moof_pos f).
    constructor.
    { unfold f_moof. eapply node_item; [apply file_moof|reflexivity|exact FM|reflexivity| | |apply moof_items].
      - intros. apply construct_other. intros [A|[A|[A|[A|[]]]]]; discriminate A.
      - destruct (f_a1 f); discriminate. }
    apply items_inert with (encs (f_pre f) ++ enc (f_moof f)) [];
      [unfold data; rewrite file_moof, <- app_assoc, app_nil_r; reflexivity|rewrite blen_app; reflexivity|apply FPO|apply FPO].
  Qed.
  Lemma parse_frag : parse_mp4 data = Ok (top_ims f).
  Proof.
    unfold parse_mp4. change (blen data) with (0 + blen (encs (f_boxes f))) at 2.
    rewrite (parse_items data (blen data) 0 [] (f_boxes f) (top_ims f) top_items); [reflexivity|unfold f_boxes; destruct (f_pre f); discriminate| |unfold data; lia].
    unfold data. clear. induction (f_boxes f) as [|k ks IH]; constructor; cbn [encs].
    - rewrite blen_app. assert (Q := blen_nonneg (encs ks)). lia.
    - eapply Forall_impl; [|exact IH]. cbn beta. intros b H. rewrite blen_app. assert (Q := blen_nonneg (enc k)). lia.
  Qed.
End Parse.
