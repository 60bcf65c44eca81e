(** Lemmas for C77. *)
From Verif Require Import Base BaseProofs BytesModel BytesProofs BoxSpec ChunkModel LangModel LangTheory BoxesModel BoxesSpec.
From Coq Require Import Lia ZArith List.
Import ListNotations.
Open Scope Z_scope.

(** ** Sizes of the parts *)
Lemma join_cons : forall r l out, join_bytes (r :: l) = Ok out ->
  exists x y, r = Ok x /\ join_bytes l = Ok y /\ out = x ++ y.
Proof.
  intros r l out H. cbn [join_bytes] in H. destruct r as [x|]; [|discriminate]. cbn [bind] in H.
  destruct (join_bytes l) as [y|]; [|discriminate]. cbn [bind] in H. exists x, y. repeat split. congruence.
Qed.
Lemma join_app : forall a b out, join_bytes (a ++ b) = Ok out ->
  exists x y, join_bytes a = Ok x /\ join_bytes b = Ok y /\ out = x ++ y.
Proof.
  induction a as [|r a IH]; intros b out H.
  - exists [], out. repeat split. exact H.
  - cbn [app] in H. apply join_cons in H. destruct H as (x & y & -> & H & ->).
    destruct (IH b y H) as (x' & y' & E1 & E2 & ->). exists (x ++ x'), y'. cbn [join_bytes]. rewrite E1.
    cbn [bind]. rewrite <- app_assoc. repeat split. exact E2.
Qed.
Lemma u16_len : forall x b, serialize_u16 x = Ok b -> blen b = 2.
Proof. intros x b. unfold serialize_u16. destruct (_ <? _); intros H; inversion H. reflexivity. Qed.
Lemma u64_len : forall x b, uint64_to_str x = Ok b -> blen b = 8.
Proof. intros x b H. apply p64_inv in H. destruct H as (_ & ->). apply blen_be_bytes. Qed.
Lemma name_len : forall x, blen (serialize_name x) = 4.
Proof. intros x. unfold serialize_name. rewrite blen_btake by lia. rewrite blen_app. pose proof (blen_nonneg x). cbn [blen List.length]. change (blen [0;0;0;0]) with 4. lia. Qed.
Lemma name_id : forall x, blen x = 4 -> serialize_name x = x.
Proof. intros x H. unfold serialize_name. rewrite btake_app_l by lia. apply btake_all. lia. Qed.
Lemma u8_len : forall x, blen (serialize_u8 x) = 1.
Proof. intros x. unfold serialize_u8. apply blen_be_bytes. Qed.
Lemma bytes_len : forall x n, 0 <= n -> blen (serialize_bytes x n) = n.
Proof.
  intros x n Hn. unfold serialize_bytes. rewrite <- (Z2Nat.id n) at 2 by exact Hn. induction (Z.to_nat n) as [|k IH]; [reflexivity|].
  cbn [repeat List.concat]. rewrite blen_app, IH, u8_len. lia.
Qed.

(** [wide r n]: the part has n bytes when it is written. *)
Definition wide (r : result bytes) (n : Z) : Prop := forall b, r = Ok b -> blen b = n.
Lemma wide_u8 : forall x, wide (u8 x) 1.
Proof. intros x b H. inversion H. apply u8_len. Qed.
Lemma wide_u16 : forall x, wide (u16 x) 2.
Proof. intros x b H. exact (u16_len _ _ H). Qed.
Lemma wide_u32 : forall x, wide (u32 x) 4.
Proof. intros x b H. inversion H. apply s32_len. Qed.
Lemma wide_u64 : forall x, wide (u64 x) 8.
Proof. intros x b H. exact (u64_len _ _ H). Qed.
Lemma wide_name : forall x, wide (fourcc x) 4.
Proof. intros x b H. inversion H. apply name_len. Qed.
Lemma wide_raw : forall x, wide (raw x) (blen x).
Proof. intros x b H. inversion H. reflexivity. Qed.
Lemma wide_bytes : forall x n, 0 <= n -> wide (raw (serialize_bytes x n)) n.
Proof. intros x n Hn b H. inversion H. apply bytes_len. exact Hn. Qed.
Lemma wide_cons : forall r l n m, wide r n -> wide (join_bytes l) m -> wide (join_bytes (r :: l)) (n + m).
Proof. intros r l n m H1 H2 b H. apply join_cons in H. destruct H as (x & y & E1 & E2 & ->). rewrite blen_app, (H1 _ E1), (H2 _ E2). reflexivity. Qed.
Lemma wide_nil : wide (join_bytes []) 0.
Proof. intros b H. inversion H. reflexivity. Qed.
Lemma wide_app : forall l k n m, wide (join_bytes l) n -> wide (join_bytes k) m -> wide (join_bytes (l ++ k)) (n + m).
Proof. intros l k n m H1 H2 b H. apply join_app in H. destruct H as (x & y & E1 & E2 & ->). rewrite blen_app, (H1 _ E1), (H2 _ E2). reflexivity. Qed.
Lemma wide_map : forall A (f : A -> result bytes) n l, (forall a, In a l -> wide (f a) n) -> wide (join_bytes (map f l)) (n * llen l).
Proof.
  intros A f n l. unfold llen. induction l as [|a l IH]; intros H.
  - intros b E. inversion E. cbn. lia.
  - cbn [map List.length]. replace (n * Z.of_nat (S (List.length l))) with (n + n * Z.of_nat (List.length l)) by lia.
    apply wide_cons; [apply H; left; reflexivity|]. apply IH. intros x Hx. apply H. right. exact Hx.
Qed.
Lemma wide_flat : forall A (f : A -> list (result bytes)) n l, (forall a, In a l -> wide (join_bytes (f a)) n) -> wide (join_bytes (flat_map f l)) (n * llen l).
Proof.
  intros A f n l. unfold llen. induction l as [|a l IH]; intros H.
  - intros b E. inversion E. cbn. lia.
  - cbn [flat_map List.length]. replace (n * Z.of_nat (S (List.length l))) with (n + n * Z.of_nat (List.length l)) by lia.
    apply wide_app; [apply H; left; reflexivity|]. apply IH. intros x Hx. apply H. right. exact Hx.
Qed.
Lemma wide_sum : forall A (f : A -> list (result bytes)) g l, (forall a, In a l -> wide (join_bytes (f a)) (g a)) -> wide (join_bytes (flat_map f l)) (zsum (map g l)).
Proof.
  intros A f g l. induction l as [|a l IH]; intros H.
  - intros b E. inversion E. reflexivity.
  - cbn [flat_map map zsum fold_right]. apply wide_app; [apply H; left; reflexivity|]. apply IH. intros x Hx. apply H. right. exact Hx.
Qed.
Lemma wide_eq : forall r n m, wide r n -> n = m -> wide r m.
Proof. intros r n m H <-. exact H. Qed.
(** Sum up the parts of a fixed list. *)
Ltac wide_tac := repeat match goal with
  | |- wide (join_bytes []) _ => apply wide_nil
  | |- wide (join_bytes (_ :: _)) _ => eapply wide_cons
  | |- wide (u8 _) _ => apply wide_u8
  | |- wide (u16 _) _ => apply wide_u16
  | |- wide (u32 _) _ => apply wide_u32
  | |- wide (u64 _) _ => apply wide_u64
  | |- wide (fourcc _) _ => apply wide_name
  | |- wide (raw (serialize_bytes _ _)) _ => apply wide_bytes; lia
  | |- wide (raw _) _ => apply wide_raw
  end.
Ltac fixed_wide := eapply wide_eq; [cbn [app times repeat matrix]; wide_tac|].

(** ** Lists of boxes *)
Lemma sizes_eq : forall l, (fix go l := match l with [] => 0 | k :: r => size k + go r end) l = zsum (map size l).
Proof. induction l as [|k l IH]; [reflexivity|]. cbn [map zsum fold_right]. rewrite IH. reflexivity. Qed.
Lemma writes_eq : forall l, (fix go l := match l with [] => Ok [] | k :: r => let* x := serialize k in let* y := go r in Ok (x ++ y) end) l =
  join_bytes (map serialize l).
Proof. induction l as [|k l IH]; [reflexivity|]. cbn [map join_bytes]. rewrite IH. reflexivity. Qed.
Lemma proper_all : forall l, (fix go l := match l with [] => True | k :: r => proper k /\ go r end) l <-> Forall proper l.
Proof.
  induction l as [|k l IH]; [split; [constructor|intros _; exact I]|]. split.
  - intros (H1 & H2). constructor; [exact H1|]. apply IH. exact H2.
  - intros H. inversion H; subst. split; [assumption|]. apply IH. assumption.
Qed.
(** Induction with the boxes in boxes *)
Definition wbox_induct (P : wbox -> Prop)
  (Hseq : forall l, Forall P l -> P (W_sequence l))
  (Hcon : forall n l, Forall P l -> P (W_container n l))
  (Hstsd : forall l, Forall P l -> P (W_stsd l))
  (Hvis : forall c w h k, P k -> P (W_visual c w h k))
  (Hrest : forall b, match b with W_sequence _ | W_container _ _ | W_stsd _ | W_visual _ _ _ _ => False | _ => True end -> P b) :
  forall b, P b :=
  fix rec b :=
    let all := fix all (l : list wbox) : Forall P l :=
      match l return Forall P l with [] => Forall_nil P | k :: r => Forall_cons k (rec k) (all r) end in
    match b return P b with
    | W_sequence l => Hseq l (all l)
    | W_container n l => Hcon n l (all l)
    | W_stsd l => Hstsd l (all l)
    | W_visual c w h k => Hvis c w h k (rec k)
    | b' => Hrest b' I
    end.

(** ** Complete boxes *)
Lemma be32_s32 : forall z, 0 <= z < 4294967296 -> serialize_u32 z = be32 z.
Proof.
  intros z Hz. unfold serialize_u32. change 4294967295 with (Z.ones 32). rewrite Z.land_ones by lia.
  change (2 ^ 32) with 4294967296. rewrite Z.mod_small by lia. unfold be32. cbn [be_bytes app].
  rewrite !Z.div_div by lia. reflexivity.
Qed.
Lemma complete_app : forall a b, complete a -> complete b -> complete (a ++ b).
Proof.
  intros a b Ha Hb. induction Ha as [|t p rest Ht Hl Hs Hr IH|t n h ks rest Hp Hh Hs Hk IHk Hr IH].
  - exact Hb.
  - rewrite <- !app_assoc. apply complete_leaf; assumption.
  - rewrite <- !app_assoc. apply complete_parent; assumption.
Qed.
Definition leafb (t : bytes) : bool := forallb (fun p => negb (bytes_eqb t (fst p))) parents.
Lemma leafb_ok : forall t, leafb t = true -> is_leaf t.
Proof.
  intros t H n Hn. unfold leafb in H. rewrite forallb_forall in H. specialize (H _ Hn). cbn [fst] in H.
  rewrite bytes_eqb_refl in H. discriminate.
Qed.
Lemma parent_len : forall t n, is_parent t n -> blen t = 4 /\ 0 <= n.
Proof.
  intros t n H. unfold is_parent in H.
  assert (A : forallb (fun p => (blen (fst p) =? 4) && (0 <=? snd p)) parents = true) by (vm_compute; reflexivity).
  rewrite forallb_forall in A. specialize (A _ H). cbn [fst snd] in A. apply andb_true_iff in A. lia.
Qed.
Definition good (n : Z) (r : result bytes) : Prop :=
  forall out, r = Ok out -> blen out = n /\ (n < 4294967296 -> complete out).
Lemma good_leaf : forall n t l, blen t = 4 -> is_leaf t -> 8 <= n -> wide (join_bytes l) (n - 8) ->
  good n (join_bytes (u32 n :: fourcc t :: l)).
Proof.
  intros n t l Ht Hl Hn Hw out H. apply join_cons in H. destruct H as (x & y & E1 & E2 & ->).
  apply join_cons in E2. destruct E2 as (x' & p & E2 & E3 & ->). inversion E1; subst x. inversion E2; subst x'.
  rewrite name_id by exact Ht. specialize (Hw _ E3). rewrite !blen_app, s32_len, Ht. split; [lia|]. intros Hb.
  rewrite be32_s32 by lia. replace n with (8 + blen p) by lia. rewrite <- (app_nil_r p) at 2.
  apply complete_leaf; [exact Ht|exact Hl|lia|constructor].
Qed.
Lemma good_parent : forall n t h l m ks, is_parent t h -> n = 8 + h + m -> 0 <= m -> wide (join_bytes l) h ->
  good m ks -> good n (join_bytes (u32 n :: fourcc t :: l ++ [ks])).
Proof.
  intros n t h l m ks Hp Hn Hm Hw Hk out H. destruct (parent_len _ _ Hp) as (Ht & Hh).
  apply join_cons in H. destruct H as (x & y & E1 & E2 & ->).
  apply join_cons in E2. destruct E2 as (x' & p & E2 & E3 & ->). inversion E1; subst x. inversion E2; subst x'.
  apply join_app in E3. destruct E3 as (a & b & E3 & E4 & ->). apply join_cons in E4. destruct E4 as (k & e & E4 & E5 & ->).
  inversion E5; subst e. rewrite app_nil_r. destruct (Hk _ E4) as (Lk & Ck). specialize (Hw _ E3).
  rewrite name_id by exact Ht. rewrite !blen_app, s32_len, Ht. split; [lia|]. intros Hb. rewrite be32_s32 by lia.
  replace n with (8 + h + blen k) by lia. rewrite <- (app_nil_r k) at 2.
  apply complete_parent; [exact Hp|exact Hw|lia|apply Ck; lia|constructor].
Qed.
Lemma good_list : forall l, Forall (fun b => good (size b) (serialize b)) l -> Forall (fun b => 0 <= size b) l ->
  good (zsum (map size l)) (join_bytes (map serialize l)).
Proof.
  induction l as [|b l IH]; intros Hg Hs out H.
  - inversion H. split; [reflexivity|]. constructor.
  - inversion Hg; subst. inversion Hs; subst. cbn [map] in H. apply join_cons in H. destruct H as (x & y & E1 & E2 & ->).
    destruct (H2 _ E1) as (L1 & C1). destruct (IH H3 H5 _ E2) as (L2 & C2).
    cbn [map zsum fold_right]. rewrite blen_app, L1, L2. split; [reflexivity|]. intros Hb.
    pose proof (blen_nonneg x). pose proof (blen_nonneg y). unfold zsum in *. apply complete_app; [apply C1|apply C2]; lia.
Qed.

Lemma senc_add_nonneg : forall l, 0 <= zsum (map (senc_add 8) l).
Proof.
  induction l as [|s l IH]; [cbn; lia|]. cbn [map zsum fold_right]. unfold zsum in IH. unfold senc_add at 1.
  destruct (some_subsamples s); lia.
Qed.
Lemma zsum_blen : forall l, 0 <= zsum (map blen l).
Proof. induction l as [|s l IH]; [cbn; lia|]. cbn [map zsum fold_right]. unfold zsum in IH. pose proof (blen_nonneg s). lia. Qed.
Lemma zsum_nonneg : forall l, Forall (fun z => 0 <= z) l -> 0 <= zsum l.
Proof. induction l as [|z l IH]; intros H; [cbn; lia|]. inversion H; subst. cbn [zsum fold_right]. specialize (IH H3). unfold zsum in IH. lia. Qed.
Lemma some_sub_iff : forall s, some_subsamples s = true <-> with_subsamples s.
Proof.
  intros [iv [[|x l]|]]; unfold some_subsamples, with_subsamples; cbn [se_subsamples]; split.
  - discriminate.
  - intros (a & b & H); discriminate.
  - intros _. exists x, l. reflexivity.
  - reflexivity.
  - discriminate.
  - intros (a & b & H); discriminate.
Qed.
Lemma senc_wide : forall l, senc_uniform l -> wide (join_bytes (flat_map (senc_fields (senc_flags l)) l)) (zsum (map (senc_add 8) l)).
Proof.
  intros l H. apply wide_sum. intros s Hs. unfold senc_fields, senc_add. destruct H as [H|H].
  - assert (E : senc_flags l = 2).
    { unfold senc_flags. replace (existsb some_subsamples l) with true; [reflexivity|]. symmetry. apply existsb_exists.
      exists s. split; [exact Hs|]. apply some_sub_iff. rewrite Forall_forall in H. exact (H _ Hs). }
    rewrite E. rewrite Forall_forall in H. pose proof (H _ Hs) as Hw. pose proof (proj2 (some_sub_iff s) Hw) as Hb. rewrite Hb.
    destruct Hw as (x & k & Hw). rewrite Hw. cbn [Z.eqb Pos.eqb]. apply wide_cons; [apply wide_u64|]. apply wide_cons; [apply wide_u16|].
    eapply wide_eq; [apply (wide_flat _ _ 6)|]; [|unfold llen; lia].
    intros p _. fixed_wide. reflexivity.
  - assert (E : senc_flags l = 0).
    { unfold senc_flags. replace (existsb some_subsamples l) with false; [reflexivity|]. symmetry.
      destruct (existsb some_subsamples l) eqn:X; [|reflexivity]. apply existsb_exists in X. destruct X as (y & Hy & Hb).
      apply some_sub_iff in Hb. rewrite Forall_forall in H. exfalso. exact (H _ Hy Hb). }
    rewrite E. rewrite Forall_forall in H. pose proof (H _ Hs) as Hw. replace (some_subsamples s) with false.
    + cbn [Z.eqb]. fixed_wide. reflexivity.
    + symmetry. destruct (some_subsamples s) eqn:X; [|reflexivity]. exfalso. apply Hw. apply some_sub_iff. exact X.
Qed.

Ltac leaf_tac := apply good_leaf; [reflexivity|apply leafb_ok; reflexivity| |].

Lemma size_nonneg : forall b, proper b -> 0 <= size b.
Proof.
  induction b using wbox_induct; intros Hp.
  - cbn [size proper] in *. rewrite sizes_eq. apply proper_all in Hp. apply zsum_nonneg. apply Forall_forall. intros z Hz.
    apply in_map_iff in Hz. destruct Hz as (k & <- & Hk). rewrite Forall_forall in H, Hp. apply H; auto.
  - cbn [size proper] in *. rewrite sizes_eq. destruct Hp as (_ & Hp). apply proper_all in Hp.
    assert (0 <= zsum (map size l)); [|lia]. apply zsum_nonneg. apply Forall_forall. intros z Hz.
    apply in_map_iff in Hz. destruct Hz as (k & <- & Hk). rewrite Forall_forall in H, Hp. apply H; auto.
  - cbn [size proper] in *. rewrite sizes_eq. apply proper_all in Hp.
    assert (0 <= zsum (map size l)); [|lia]. apply zsum_nonneg. apply Forall_forall. intros z Hz.
    apply in_map_iff in Hz. destruct Hz as (k & <- & Hk). rewrite Forall_forall in H, Hp. apply H; auto.
  - cbn [size proper] in *. destruct Hp as (_ & Hp). specialize (IHb Hp). lia.
  - destruct b; try contradiction; cbn [size proper] in *; unfold llen;
      try match goal with |- context [has_offsets ?l] => destruct (has_offsets l) end;
      try match goal with |- context [zsum (map blen ?l)] => pose proof (zsum_blen l) end;
      try match goal with |- context [blen ?x] => pose proof (blen_nonneg x) end;
      try match goal with |- context [blen ?x + blen ?y] => pose proof (blen_nonneg x); pose proof (blen_nonneg y) end; try lia.
    + pose proof (blen_nonneg sps). pose proof (blen_nonneg pps). lia.
    + pose proof (blen_nonneg vps). pose proof (blen_nonneg sps). pose proof (blen_nonneg pps). lia.
    + destruct Hp as (-> & _). pose proof (senc_add_nonneg samples). lia.
Qed.

Lemma kids_good : forall l, Forall (fun b => proper b -> good (size b) (serialize b)) l -> Forall proper l ->
  good (zsum (map size l)) (join_bytes (map serialize l)).
Proof.
  intros l H Hp. apply good_list.
  - rewrite Forall_forall in *. intros b Hb. apply H; auto.
  - rewrite Forall_forall in *. intros b Hb. apply size_nonneg. auto.
Qed.
Lemma kids_nonneg : forall l, Forall proper l -> 0 <= zsum (map size l).
Proof.
  intros l Hp. apply zsum_nonneg. apply Forall_forall. intros z Hz. apply in_map_iff in Hz. destruct Hz as (k & <- & Hk).
  apply size_nonneg. rewrite Forall_forall in Hp. auto.
Qed.
Lemma url_good : good 12 (join_bytes [u32 12; fourcc (bstr "url "); u32 1]).
Proof. leaf_tac; [lia|]. fixed_wide. reflexivity. Qed.
Lemma vttc_good : forall x, good (8 + blen x) (join_bytes [u32 (8 + blen x); raw (bstr "vttC"); raw x]).
Proof.
  intros x. change (raw (bstr "vttC")) with (fourcc (bstr "vttC")). pose proof (blen_nonneg x). leaf_tac; [lia|]. fixed_wide. lia.
Qed.
Lemma mdhd_good : forall a b c, good 32 (mdhd_bytes a b c).
Proof.
  intros a b c out H. unfold mdhd_bytes in H.
  remember (match lang_bits c with Ok v => v | Err _ => 21956 end) as code.
  assert (E : join_bytes [u32 32; fourcc (bstr "mdhd"); u32 0; u32 0; u32 0; u32 a; u32 b; u16 code; u16 0] = Ok out).
  { unfold u32, u16, fourcc. cbn [join_bytes bind]. destruct (serialize_u16 code) as [x|]; [|discriminate]. cbn [bind] in H |- *.
    destruct (serialize_u16 0) as [y|]; [|discriminate]. cbn [bind] in H |- *. inversion H. rewrite app_nil_r. reflexivity. }
  revert out E H. intros out E _. revert out E. change (good 32 (join_bytes [u32 32; fourcc (bstr "mdhd"); u32 0; u32 0; u32 0; u32 a; u32 b; u16 code; u16 0])).
  leaf_tac; [lia|]. fixed_wide. reflexivity.
Qed.
Lemma run_wide : forall comp l, wide (join_bytes (flat_map (run_fields comp) l)) ((12 + (if comp then 4 else 0)) * llen l).
Proof. intros comp l. apply wide_flat. intros s _. unfold run_fields. destruct comp; fixed_wide; reflexivity. Qed.
Lemma parts_wide : forall l, wide (join_bytes (map raw l)) (zsum (map blen l)).
Proof. induction l as [|x l IH]; [apply wide_nil|]. cbn [map zsum fold_right]. apply wide_cons; [apply wide_raw|exact IH]. Qed.
Lemma llen_nonneg : forall A (l : list A), 0 <= llen l.
Proof. intros A l. unfold llen. lia. Qed.
Ltac parent_in := unfold is_parent; cbn; tauto.

Lemma all_good : forall b, proper b -> good (size b) (serialize b).
Proof.
  induction b using wbox_induct; intros Hp.
  - cbn [size proper serialize] in *. rewrite sizes_eq, writes_eq. apply proper_all in Hp. apply kids_good; assumption.
  - cbn [size proper serialize] in *. rewrite sizes_eq, writes_eq. destruct Hp as ((Ht & Hp0) & Hp). apply proper_all in Hp.
    apply (good_parent _ n 0 [] (zsum (map size l))); [exact Hp0|lia|apply kids_nonneg; exact Hp|apply wide_nil|apply kids_good; assumption].
  - cbn [size proper serialize app] in *. rewrite sizes_eq, writes_eq. apply proper_all in Hp.
    apply (good_parent _ (bstr "stsd") 8 [u32 0; u32 (llen l)] (zsum (map size l)));
      [parent_in|lia|apply kids_nonneg; exact Hp|fixed_wide; reflexivity|apply kids_good; assumption].
  - cbn [size proper serialize app] in *. destruct Hp as ((Ht & Hp0) & Hp).
    apply (good_parent _ c 78 [raw (serialize_bytes 0 6); u16 1; u16 0; u16 0; raw (serialize_bytes 0 12);
                   u16 w; u16 h; u32 4718592; u32 4718592; raw (serialize_bytes 0 4); u16 1; raw (serialize_bytes 0 32);
                   u16 24; u16 65535] (size b)); [exact Hp0|lia|apply size_nonneg; exact Hp|fixed_wide; reflexivity|exact (IHb Hp)].
  - destruct b; try contradiction; cbn [size proper serialize app] in *.
    + (* ftyp *) pose proof (llen_nonneg _ brands). destruct styp.
      * leaf_tac; [lia|]. apply wide_eq with (4 + (4 + 4 * llen brands)); [|lia]. apply wide_cons; [apply wide_name|].
        apply wide_cons; [apply wide_u32|]. apply wide_map. intros x _. apply wide_name.
      * leaf_tac; [lia|]. apply wide_eq with (4 + (4 + 4 * llen brands)); [|lia]. apply wide_cons; [apply wide_name|].
        apply wide_cons; [apply wide_u32|]. apply wide_map. intros x _. apply wide_name.
    + leaf_tac; [lia|]. fixed_wide. reflexivity.
    + leaf_tac; [lia|]. fixed_wide. reflexivity.
    + leaf_tac; [lia|]. fixed_wide. reflexivity.
    + apply mdhd_good.
    + pose proof (blen_nonneg name). leaf_tac; [lia|]. fixed_wide. lia.
    + leaf_tac; [lia|]. fixed_wide. reflexivity.
    + change (join_bytes _) with (join_bytes (u32 28 :: fourcc (bstr "dref") :: [u32 0; u32 1] ++ [u32 12; fourcc (bstr "url "); u32 1])).
      intros out E. apply (good_parent 28 (bstr "dref") 8 [u32 0; u32 1] 12 (join_bytes [u32 12; fourcc (bstr "url "); u32 1]));
        [parent_in|lia|lia|fixed_wide; reflexivity|exact url_good|]. rewrite <- E. reflexivity.
    + leaf_tac; [lia|]. fixed_wide. reflexivity.
    + leaf_tac; [lia|]. fixed_wide. reflexivity.
    + leaf_tac; [lia|]. fixed_wide. reflexivity.
    + destruct Hp as ((Ht & Hp0) & Hp). pose proof (blen_nonneg esds).
      apply (good_parent _ coding 28 [raw (serialize_bytes 0 6); u16 1; raw (serialize_bytes 0 8);
                  u16 channels; u16 sample_size; u16 0; u16 0; u32 (Z.shiftl sample_rate 16)] (blen esds));
        [exact Hp0|lia|lia|fixed_wide; reflexivity|]. intros out E. inversion E. subst out. split; [reflexivity|]. intros _. exact Hp.
    + intros out E. apply (good_parent 30 (bstr "wvtt") 8 [raw (repeat 0 6%nat); u16 1] 14
        (join_bytes [u32 14; raw (bstr "vttC"); raw (encode_utf8 "WEBVTT")]));
        [parent_in|lia|lia|fixed_wide; reflexivity|exact (vttc_good (encode_utf8 "WEBVTT"))|]. rewrite <- E. reflexivity.
    + apply vttc_good.
    + change (raw (bstr "vtte")) with (fourcc (bstr "vtte")). leaf_tac; [lia|]. fixed_wide. reflexivity.
    + change (raw (bstr "payl")) with (fourcc (bstr "payl")). pose proof (blen_nonneg (encode_utf8 text)). leaf_tac; [lia|]. fixed_wide. lia.
    + pose proof (blen_nonneg sps). pose proof (blen_nonneg pps). leaf_tac; [lia|]. fixed_wide. lia.
    + intros out E. discriminate E.
    + pose proof (blen_nonneg decoder_config). leaf_tac; [lia|]. fixed_wide. lia.
    + leaf_tac; [lia|]. fixed_wide. reflexivity.
    + leaf_tac; [lia|]. fixed_wide. reflexivity.
    + leaf_tac; [lia|]. fixed_wide. reflexivity.
    + leaf_tac; [lia|]. fixed_wide. reflexivity.
    + leaf_tac; [lia|]. fixed_wide. reflexivity.
    + leaf_tac; [lia|]. fixed_wide. reflexivity.
    + leaf_tac; [lia|]. fixed_wide. reflexivity.
    + (* trun *) pose proof (llen_nonneg _ samples). leaf_tac; [destruct (has_offsets samples); lia|].
      apply wide_eq with (4 + (4 + (4 + (12 + (if has_offsets samples then 4 else 0)) * llen samples))); [|destruct (has_offsets samples); lia].
      do 3 (apply wide_cons; [apply wide_u32|]). apply run_wide.
    + leaf_tac; [lia|]. fixed_wide. reflexivity.
    + (* mdat *) pose proof (zsum_blen data). leaf_tac; [lia|]. apply wide_eq with (zsum (map blen data)); [apply parts_wide|lia].
    + (* saiz *) pose proof (llen_nonneg _ samples). leaf_tac; [lia|]. apply wide_eq with (4 + (1 + (4 + 1 * llen samples))); [|lia].
      apply wide_cons; [apply wide_u32|]. apply wide_cons; [apply wide_u8|]. apply wide_cons; [apply wide_u32|]. apply wide_map. intros x _. apply wide_u8.
    + leaf_tac; [lia|]. fixed_wide. reflexivity.
    + (* sbgp *) pose proof (llen_nonneg _ groups). leaf_tac; [lia|]. apply wide_eq with (4 + (4 + 8 * llen groups)); [|lia].
      do 2 (apply wide_cons; [apply wide_u32|]). apply wide_flat. intros p _. fixed_wide. reflexivity.
    + (* sgpd *) pose proof (llen_nonneg _ groups). leaf_tac; [lia|]. apply wide_eq with (4 + (4 + (4 + 20 * llen groups))); [|lia].
      do 3 (apply wide_cons; [apply wide_u32|]). apply wide_flat. intros g Hg. rewrite Forall_forall in Hp. specialize (Hp _ Hg).
      unfold group_fields. fixed_wide. lia.
    + (* senc *) destruct Hp as (-> & Hp). pose proof (senc_add_nonneg samples). leaf_tac; [lia|].
      apply wide_eq with (4 + (4 + zsum (map (senc_add 8) samples))); [|lia].
      do 2 (apply wide_cons; [apply wide_u32|]). apply senc_wide. exact Hp.
    + (* sidx *) pose proof (llen_nonneg _ refs). leaf_tac; [lia|].
      assert (W : wide (join_bytes (flat_map ref_fields refs)) (12 * llen refs)) by (apply wide_flat; intros r _; unfold ref_fields; fixed_wide; reflexivity).
      destruct Hp as [-> | ->]; cbn [Z.eqb app].
      * apply wide_eq with (1 + (2 + (1 + (4 + (4 + (4 + (4 + (2 + (2 + 12 * llen refs))))))))); [|lia]. repeat (apply wide_cons; [wide_tac|]). exact W.
      * apply wide_eq with (1 + (2 + (1 + (4 + (4 + (8 + (8 + (2 + (2 + 12 * llen refs))))))))); [|lia]. repeat (apply wide_cons; [wide_tac|]). exact W.
Qed.
