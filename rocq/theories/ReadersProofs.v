(** Lemmas for C80. *)
From Verif Require Import Base BaseProofs BytesModel BytesProofs ChunkModel ChunkParse LangModel LangTheory BoxesModel BoxesProofs TablesModel ReadersModel ReadersSpec.
From Coq Require Import Lia ZArith List.
Import ListNotations.
Open Scope Z_scope.

Definition s32 := serialize_u32.
Definition s8 := serialize_u8.
Lemma s32v : forall x, bits 32 x -> be_val (s32 x) = x.
Proof. intros x H. unfold bits in H. change (2 ^ 32) with 4294967296 in H. unfold s32. rewrite s32_val. apply Z.mod_small. exact H. Qed.
Lemma s8v : forall x, bits 8 x -> be_val (s8 x) = x.
Proof.
  intros x H. unfold bits in H. change (2 ^ 8) with 256 in H. unfold s8, serialize_u8. change 255 with (Z.ones 8). rewrite Z.land_ones by lia.
  rewrite Z.mod_small by exact H. apply be_val_be_bytes. exact H.
Qed.
Lemma b16v : forall x, bits 16 x -> be_val (be_bytes 2 x) = x.
Proof. intros x H. apply be_val_be_bytes. exact H. Qed.
Lemma b64v : forall x, bits 64 x -> be_val (be_bytes 8 x) = x.
Proof. intros x H. apply be_val_be_bytes. exact H. Qed.
Lemma u16_is : forall x, bits 16 x -> u16 x = Ok (be_bytes 2 x).
Proof.
  intros x H. unfold bits in H. change (2 ^ 16) with 65536 in H. unfold u16, serialize_u16. change 1048575 with (Z.ones 20). rewrite Z.land_ones by lia.
  change (2 ^ 20) with 1048576. rewrite Z.mod_small by lia. destruct (Z.ltb_spec x 65536); [reflexivity|lia].
Qed.
Lemma u64_is : forall x, bits 64 x -> u64 x = Ok (be_bytes 8 x).
Proof. intros x H. unfold u64. apply p64_ok. exact H. Qed.
Lemma join_oks : forall fs, join_bytes (map Ok fs) = Ok (concat fs).
Proof. induction fs as [|f fs IH]; [reflexivity|]. cbn [map join_bytes bind concat]. rewrite IH. reflexivity. Qed.

(** The fields of a box at their places *)
Definition placed (data : bytes) (o : Z) (fs : list bytes) : Prop :=
  exists pre post, data = pre ++ concat fs ++ post /\ o = blen pre.
Lemma placed_of : forall data o b n fs, written data o b n -> serialize b = Ok (concat fs) -> placed data o fs /\ n = blen (concat fs).
Proof.
  intros data o b n fs (pre & out & post & E & D & -> & ->) E'. rewrite E in E'. inversion E'; subst. split; [exists pre, post; split; reflexivity|reflexivity].
Qed.
Lemma split_at : forall (fs : list bytes) k f, nth_error fs k = Some f -> concat fs = concat (firstn k fs) ++ f ++ concat (skipn (S k) fs).
Proof.
  induction fs as [|g fs IH]; intros [|k] f H; try discriminate; cbn [nth_error] in H.
  - inversion H; subst. reflexivity.
  - cbn [firstn skipn concat]. rewrite <- app_assoc. f_equal. apply IH. exact H.
Qed.
Lemma field_slice : forall data o fs k f n a z, placed data o fs -> nth_error fs k = Some f -> blen (concat (firstn k fs)) = n ->
  a = o + n -> z = o + n + blen f -> bslice a z data = f.
Proof.
  intros data o fs k f n a z (pre & post & -> & ->) H L -> ->. pose proof (blen_nonneg pre). pose proof (blen_nonneg f).
  rewrite (split_at _ _ _ H), <- !app_assoc, (app_assoc pre). replace (blen pre + n) with (blen (pre ++ concat (firstn k fs))) by (rewrite blen_app, L; reflexivity).
  apply bslice_mid. reflexivity.
Qed.
Lemma at32 : forall data o fs k x n a, placed data o fs -> nth_error fs k = Some (s32 x) -> blen (concat (firstn k fs)) = n -> bits 32 x -> a = o + n -> u32_at data a = Ok x.
Proof.
  intros data o fs k x n a P H L B ->. unfold u32_at. rewrite (field_slice data o fs k (s32 x) n) by (try assumption; reflexivity).
  rewrite u32_ok by reflexivity. rewrite s32v by exact B. reflexivity.
Qed.
Lemma at64 : forall data o fs k x n a, placed data o fs -> nth_error fs k = Some (be_bytes 8 x) -> blen (concat (firstn k fs)) = n -> bits 64 x -> a = o + n -> u64_at data a = Ok x.
Proof.
  intros data o fs k x n a P H L B ->. unfold u64_at. rewrite (field_slice data o fs k (be_bytes 8 x) n) by (try assumption; reflexivity).
  rewrite u64_ok by reflexivity. rewrite b64v by exact B. reflexivity.
Qed.
Lemma at16 : forall data o fs k x n a, placed data o fs -> nth_error fs k = Some (be_bytes 2 x) -> blen (concat (firstn k fs)) = n -> bits 16 x -> a = o + n -> u16_at data a = Ok x.
Proof.
  intros data o fs k x n a P H L B ->. unfold u16_at. rewrite (field_slice data o fs k (be_bytes 2 x) n) by (try assumption; reflexivity).
  rewrite b16v by exact B. reflexivity.
Qed.
Lemma at16s : forall data o fs k x n a, placed data o fs -> nth_error fs k = Some (be_bytes 2 x) -> blen (concat (firstn k fs)) = n -> bits 15 x -> a = o + n -> s16_at data a = Ok x.
Proof.
  intros data o fs k x n a P H L B E. unfold s16_at. unfold bits in B. change (2 ^ 15) with 32768 in B.
  rewrite (at16 data o fs k x n a) by (try assumption; unfold bits; change (2 ^ 16) with 65536; lia). cbn [bind].
  destruct (Z.ltb_spec x 32768); [reflexivity|lia].
Qed.
Lemma at8 : forall data o fs k x n a, placed data o fs -> nth_error fs k = Some (s8 x) -> blen (concat (firstn k fs)) = n -> bits 8 x -> a = o + n -> u8_at data a = Ok x.
Proof.
  intros data o fs k x n a P H L B ->. unfold u8_at. rewrite (field_slice data o fs k (s8 x) n) by (try assumption; reflexivity).
  rewrite s8v by exact B. reflexivity.
Qed.
Lemma at8s : forall data o fs k x n a, placed data o fs -> nth_error fs k = Some (s8 x) -> blen (concat (firstn k fs)) = n -> bits 7 x -> a = o + n -> s8_at data a = Ok x.
Proof.
  intros data o fs k x n a P H L B E. unfold s8_at. unfold bits in B. change (2 ^ 7) with 128 in B.
  rewrite (at8 data o fs k x n a) by (try assumption; unfold bits; change (2 ^ 8) with 256; lia). cbn [bind].
  destruct (Z.ltb_spec x 128); [reflexivity|lia].
Qed.
(** Version and flags *)
Lemma at_full : forall data o fs k v f, placed data o fs -> nth_error fs k = Some (s32 (v * 16777216 + f)) -> blen (concat (firstn k fs)) = 8 ->
  0 <= v < 256 -> 0 <= f < 16777216 -> full_at data o = Ok (v, f).
Proof.
  intros data o fs k v f (pre & post & -> & ->) H L Hv Hf. rewrite (split_at _ _ _ H), <- !app_assoc, (app_assoc pre). unfold s32. rewrite be32_s32 by lia.
  apply full_at_ok; try assumption. rewrite blen_app, L. lia.
Qed.
(** A part of the fields, and the rest of them *)
Lemma inner : forall data o fs k gs n, placed data o fs -> nth_error fs k = Some (concat gs) -> blen (concat (firstn k fs)) = n -> placed data (o + n) gs.
Proof.
  intros data o fs k gs n (pre & post & -> & ->) H L. exists (pre ++ concat (firstn k fs)), (concat (skipn (S k) fs) ++ post).
  rewrite (split_at _ _ _ H), <- !app_assoc, blen_app, L. split; reflexivity.
Qed.
Lemma tail_slice : forall data o fs k n z, placed data o fs -> blen (concat (firstn k fs)) = n -> z = blen (concat fs) -> bslice (o + n) (o + z) data = concat (skipn k fs).
Proof.
  intros data o fs k n z (pre & post & -> & ->) L ->. rewrite <- (firstn_skipn k fs) at 1 2. rewrite concat_app, blen_app, <- !app_assoc, (app_assoc pre), L.
  replace (blen pre + n) with (blen (pre ++ concat (firstn k fs))) by (rewrite blen_app, L; reflexivity).
  replace (blen pre + (n + blen (concat (skipn k fs)))) with (blen (pre ++ concat (firstn k fs)) + blen (concat (skipn k fs))) by (rewrite blen_app, L; lia).
  apply bslice_mid. reflexivity.
Qed.
(** Tables *)
Lemma rows_len : forall A (e : A -> bytes) w l, (forall x, In x l -> blen (e x) = w) -> blen (concat (map e l)) = w * llen l.
Proof.
  intros A e w l. unfold llen. induction l as [|x l IH]; intros H; cbn [map concat]; [rewrite blen_nil; cbn; lia|].
  rewrite blen_app, H, IH by (intros; try apply H; cbn; auto). cbn [List.length]. lia.
Qed.
Lemma firstn_In : forall A n (l : list A) x, In x (firstn n l) -> In x l.
Proof. intros A n. induction n as [|n IH]; intros [|y l] x H; cbn in *; try contradiction; auto. destruct H; auto. Qed.
Lemma row_of : forall A (e : A -> bytes) w h l i x, (forall x, In x l -> blen (e x) = w) -> nth_error l i = Some x ->
  nth_error (h ++ map e l) (List.length h + i) = Some (e x) /\ blen (concat (firstn (List.length h + i) (h ++ map e l))) = blen (concat h) + w * Z.of_nat i.
Proof.
  intros A e w h l i x W H. split.
  - rewrite nth_error_app2 by lia. replace (_ + i - _)%nat with i by lia. apply map_nth_error. exact H.
  - rewrite firstn_app_2, concat_app, blen_app, firstn_map, (rows_len A e w) by (intros y Hy; apply W; eapply firstn_In; exact Hy).
    unfold llen. rewrite firstn_length_le; [reflexivity|]. apply Nat.lt_le_incl. apply nth_error_Some. congruence.
Qed.
Lemma join_app : forall a b x y, join_bytes a = Ok x -> join_bytes b = Ok y -> join_bytes (a ++ b) = Ok (x ++ y).
Proof.
  induction a as [|r a IH]; intros b x y Ha Hb; cbn [join_bytes app] in *.
  - inversion Ha; subst. exact Hb.
  - destruct r as [u|]; [|discriminate]. cbn [bind] in *. destruct (join_bytes a) as [v|] eqn:E; [|discriminate]. cbn [bind] in Ha. inversion Ha; subst.
    rewrite (IH b v y) by (auto). cbn [bind]. rewrite app_assoc. reflexivity.
Qed.
Lemma join_rows : forall A (g : A -> list (result bytes)) (e : A -> bytes) l, (forall x, In x l -> join_bytes (g x) = Ok (e x)) -> join_bytes (flat_map g l) = Ok (concat (map e l)).
Proof.
  intros A g e l. induction l as [|x l IH]; intros H; [reflexivity|]. cbn [flat_map map concat]. apply join_app; [apply H; left; reflexivity|].
  apply IH. intros y Hy. apply H. right. exact Hy.
Qed.
Lemma join_table : forall A (g : A -> list (result bytes)) (e : A -> bytes) l h, (forall x, In x l -> join_bytes (g x) = Ok (e x)) ->
  join_bytes (map Ok h ++ flat_map g l) = Ok (concat (h ++ map e l)).
Proof. intros. rewrite concat_app. apply join_app; [apply join_oks|apply join_rows; assumption]. Qed.
Lemma flat_single : forall A B (f : A -> B) l, flat_map (fun x => [f x]) l = map f l.
Proof. intros. induction l; cbn; congruence. Qed.

(** parse_generator *)
Lemma send_f : forall n f rest, blen f = n -> 0 < n -> send n (f ++ rest) = Ok (be_val f, rest).
Proof.
  intros n f rest <- H. unfold send. destruct (f ++ rest) eqn:E; [destruct f; [rewrite blen_nil in H; lia|discriminate]|]. rewrite <- E. clear E.
  rewrite blen_app. pose proof (blen_nonneg rest). destruct (Z.ltb_spec (blen f + blen rest) (blen f)); [lia|].
  rewrite btake_len, bdrop_len. reflexivity.
Qed.
Lemma send_all : forall f rest, send_bytes (List.length f) (f ++ rest) = Ok (f, rest).
Proof.
  induction f as [|x f IH]; intros rest; [reflexivity|]. cbn [List.length send_bytes app].
  change (x :: f ++ rest) with ([x] ++ (f ++ rest)). rewrite send_f by (try reflexivity; lia). cbn [bind].
  rewrite IH. cbn [bind]. reflexivity.
Qed.
Lemma send_n : forall n f rest, List.length f = n -> send_bytes n (f ++ rest) = Ok (f, rest).
Proof. intros n f rest <-. apply send_all. Qed.
Lemma send_z : forall f rest, send_bytes (Z.to_nat (blen f)) (f ++ rest) = Ok (f, rest).
Proof. intros. apply send_n. unfold blen. lia. Qed.
