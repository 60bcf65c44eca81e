(** Lemmas for C79. *)
From Verif Require Import Base BaseProofs BytesModel BytesProofs BoxSpec Mp4Proofs ChunkModel TablesModel TablesSpec.
From Coq Require Import Lia ZArith List.
Import ListNotations.
Open Scope Z_scope.

(** ** Reading *)
Lemma in_slice : forall data o t p a z, in_file data o (Leaf t p) -> blen t = 4 -> 0 <= a <= z -> z <= blen p ->
  bslice (o + 8 + a) (o + 8 + z) data = bslice a z p.
Proof.
  intros data o t p a z (pre & post & -> & ->) Lt Ha Hz.
  replace (pre ++ enc (Leaf t p) ++ post) with ((pre ++ be32 (8 + blen p) ++ t) ++ p ++ post)
    by (cbn [enc]; rewrite <- !app_assoc; reflexivity).
  pose proof (blen_nonneg pre).
  assert (L : blen (pre ++ be32 (8 + blen p) ++ t) = blen pre + 8) by (rewrite !blen_app, blen_be32, Lt; lia).
  rewrite bslice_app_r by lia. rewrite L. replace (blen pre + 8 + a - (blen pre + 8)) with a by lia.
  replace (blen pre + 8 + z - (blen pre + 8)) with z by lia. apply bslice_app_l; lia.
Qed.
Lemma in_slice' : forall data o t p a z a' z', in_file data o (Leaf t p) -> blen t = 4 -> a = o + 8 + a' -> z = o + 8 + z' -> 0 <= a' <= z' -> z' <= blen p ->
  bslice a z data = bslice a' z' p.
Proof. intros. subst. eapply in_slice; eassumption. Qed.
Lemma full_ok : forall data o t v rest, in_file data o (Leaf t ([v; 0; 0; 0] ++ rest)) -> blen t = 4 -> full_at data o = Ok (v, 0).
Proof.
  intros data o t v rest H Lt. pose proof (blen_nonneg rest). unfold full_at.
  rewrite (in_slice' _ _ _ _ (o + 8) (o + 9) 0 1 H Lt) by (try lia; rewrite blen_app; cbn [blen List.length]; change (blen [v; 0; 0; 0]) with 4; lia).
  rewrite (in_slice' _ _ _ _ (o + 9) (o + 12) 1 4 H Lt) by (try lia; rewrite blen_app; change (blen [v; 0; 0; 0]) with 4; lia).
  reflexivity.
Qed.
Lemma u32_read : forall data o t pre x post a, in_file data o (Leaf t (pre ++ be32 x ++ post)) -> blen t = 4 -> u32 x -> a = o + 8 + blen pre -> u32_at data a = Ok x.
Proof.
  intros data o t pre x post a H Lt Hx ->. pose proof (blen_nonneg pre). pose proof (blen_nonneg post). unfold u32_at.
  rewrite (in_slice' _ _ _ _ (o + 8 + blen pre) (o + 8 + blen pre + 4) (blen pre) (blen pre + 4) H Lt)
    by (try lia; rewrite !blen_app, blen_be32; lia).
  rewrite (bslice_mid pre (be32 x) post 4) by (rewrite blen_be32; reflexivity).
  rewrite u32_ok by apply blen_be32. rewrite be32_val by exact Hx. reflexivity.
Qed.
Section words.
Variable f : Z -> bytes.
Variable w : Z.
Variable P : Z -> Prop.
Hypothesis W : 0 <= w.
Hypothesis L : forall x, blen (f x) = w.
Hypothesis V : forall x, P x -> be_val (f x) = x.
Lemma words_len : forall l, blen (flat_map f l) = count l * w.
Proof. unfold count. induction l as [|x l IH]; [reflexivity|]. cbn [flat_map List.length]. rewrite blen_app, L, IH. lia. Qed.
Lemma words_ok : forall l, Forall P l -> words_of (Z.to_nat w) (List.length l) (flat_map f l) = l.
Proof.
  induction l as [|x l IH]; intros H; [reflexivity|]. inversion H; subst. cbn [flat_map List.length words_of].
  assert (E : firstn (Z.to_nat w) (f x ++ flat_map f l) = f x) by (rewrite <- (L x); apply (btake_len (f x))).
  assert (E' : skipn (Z.to_nat w) (f x ++ flat_map f l) = flat_map f l) by (rewrite <- (L x); apply (bdrop_len (f x))).
  rewrite E, E', V, IH by assumption. reflexivity.
Qed.
Lemma words_read : forall data o t pre l n a, in_file data o (Leaf t (pre ++ flat_map f l)) -> blen t = 4 -> Forall P l -> n = count l -> a = o + 8 + blen pre ->
  words_at w n data a = Ok l.
Proof.
  intros data o t pre l n a H Lt Hl -> ->. pose proof (blen_nonneg pre). unfold words_at.
  assert (0 <= count l * w) by (unfold count; lia).
  rewrite (in_slice' _ _ _ _ (o + 8 + blen pre) (o + 8 + blen pre + count l * w) (blen pre) (blen pre + count l * w) H Lt)
    by (try lia; rewrite blen_app, words_len; lia).
  rewrite <- (app_nil_r (flat_map f l)). rewrite (bslice_mid pre (flat_map f l) [] (count l * w)) by (rewrite words_len; reflexivity).
  rewrite words_len, Z.eqb_refl. unfold count at 1. rewrite Nat2Z.id, words_ok by exact Hl. reflexivity.
Qed.
End words.
Lemma blen_be64 : forall z, blen (be64 z) = 8.
Proof. reflexivity. Qed.
Lemma be64_val : forall z, u64 z -> be_val (be64 z) = z.
Proof.
  intros z H. unfold u64 in H. unfold be64. rewrite be_val_app, blen_be32, !be32_val.
  - change (256 ^ 4) with 4294967296. pose proof (Z.div_mod z 4294967296). lia.
  - apply Z.mod_pos_bound. lia.
  - split; [apply Z.div_pos; lia|apply Z.div_lt_upper_bound; lia].
Qed.
Definition read32 := words_read be32 4 u32 ltac:(lia) blen_be32 be32_val.
Definition read64 := words_read be64 8 u64 ltac:(lia) blen_be64 be64_val.

(** ** Indices and the search *)
Lemma idx_mid : forall A (l1 : list A) x l2 i, i = count l1 -> py_idx (l1 ++ x :: l2) i = Ok x.
Proof.
  intros A l1 x l2 i ->. unfold py_idx, count. destruct (Z.ltb_spec (Z.of_nat (List.length l1)) 0); [lia|].
  destruct (Z.ltb_spec (Z.of_nat (List.length l1)) 0); [lia|]. rewrite Nat2Z.id, nth_error_app2 by lia. rewrite Nat.sub_diag. reflexivity.
Qed.
Lemma count_app : forall A (a b : list A), count (a ++ b) = count a + count b.
Proof. intros. unfold count. rewrite app_length. lia. Qed.
Lemma count_cons : forall A (x : A) l, count (x :: l) = 1 + count l.
Proof. intros. unfold count. cbn [List.length]. lia. Qed.
Lemma count_nonneg : forall A (l : list A), 0 <= count l.
Proof. intros. unfold count. lia. Qed.
Lemma idx_in : forall A (l : list A) i, 0 <= i < count l -> exists l1 x l2, l = l1 ++ x :: l2 /\ i = count l1.
Proof.
  intros A l i H. unfold count in *. destruct (nth_error l (Z.to_nat i)) as [x|] eqn:E.
  - apply nth_error_split in E. destruct E as (l1 & l2 & E & L). exists l1, x, l2. split; [exact E|]. lia.
  - apply nth_error_None in E. lia.
Qed.
Lemma search_ok : forall fuel l1 l2 n lo hi, Forall (fun x => x <= n) l1 -> Forall (fun x => n < x) l2 ->
  0 <= lo <= count l1 -> count l1 <= hi <= count (l1 ++ l2) -> (Z.to_nat (hi - lo) < fuel)%nat -> search fuel (l1 ++ l2) n lo hi = Ok (count l1).
Proof.
  induction fuel as [|f IH]; intros l1 l2 n lo hi H1 H2 Hl Hh Hf; [lia|]. cbn [search].
  destruct (Z.ltb_spec lo hi); [|f_equal; lia].
  assert (M : lo <= (lo + hi) / 2 < hi) by (split; [apply Z.div_le_lower_bound; lia|apply Z.div_lt_upper_bound; lia]).
  destruct (idx_in _ (l1 ++ l2) ((lo + hi) / 2)) as (m1 & x & m2 & E & C); [lia|].
  rewrite E at 1. rewrite idx_mid by exact C. cbn [bind].
  assert (X : nth_error (l1 ++ l2) (List.length m1) = Some x) by (rewrite E, nth_error_app2, Nat.sub_diag by lia; reflexivity).
  unfold count in *. destruct (Z.ltb_spec n x) as [Q|Q].
  - apply IH; try assumption; try lia. split; [|lia].
    destruct (Z_le_gt_dec (Z.of_nat (List.length l1)) ((lo + hi) / 2)); [lia|exfalso].
    rewrite nth_error_app1 in X by lia. rewrite Forall_forall in H1. apply nth_error_In in X. specialize (H1 _ X). lia.
  - apply IH; try assumption; try lia. split; [lia|].
    destruct (Z_le_gt_dec ((lo + hi) / 2 + 1) (Z.of_nat (List.length l1))); [lia|exfalso].
    rewrite nth_error_app2 in X by lia. rewrite Forall_forall in H2. apply nth_error_In in X. specialize (H2 _ X). lia.
Qed.
Lemma find_ok : forall l1 l2 n c, Forall (fun x => x <= n) l1 -> Forall (fun x => n < x) l2 -> c = count (l1 ++ l2) -> find_entry c (l1 ++ l2) n = Ok (count l1).
Proof.
  intros l1 l2 n c H1 H2 ->. pose proof (count_nonneg _ l1). pose proof (count_nonneg _ l2). unfold find_entry.
  apply search_ok; try assumption; rewrite ?count_app; lia.
Qed.

(** ** Runs *)
Definition total (runs : list (Z * Z)) : Z := sum (map fst runs).
Lemma sum_app : forall a b, sum (a ++ b) = sum a + sum b.
Proof. induction a as [|x a IH]; intros; cbn [app sum]; [lia|]. rewrite IH. lia. Qed.
Lemma sum_repeat : forall x n, sum (repeat x n) = Z.of_nat n * x.
Proof. induction n as [|n IH]; [reflexivity|]. cbn [repeat sum]. rewrite IH. lia. Qed.
Lemma count_repeat : forall A (x : A) n, count (repeat x n) = Z.of_nat n.
Proof. intros. unfold count. rewrite repeat_length. reflexivity. Qed.
Lemma split_repeat : forall A (x y : A) n l1 l2, repeat x n = l1 ++ y :: l2 -> y = x /\ l1 = repeat x (List.length l1) /\ (List.length l1 < n)%nat.
Proof.
  intros A x y n l1 l2 H. assert (F : Forall (eq x) (l1 ++ y :: l2)) by (rewrite <- H; clear; induction n; constructor; auto).
  assert (L : n = (List.length l1 + S (List.length l2))%nat) by (rewrite <- (repeat_length x n), H, app_length; reflexivity).
  apply Forall_app in F. destruct F as (F1 & F2). inversion F2; subst. split; [reflexivity|]. split; [|lia].
  clear - F1. induction F1 as [|z l E _ IH]; [reflexivity|]. subst. cbn [List.length repeat]. f_equal. exact IH.
Qed.
(** A member of a concatenation is in one of the lists. *)
Lemma split_app : forall A (a b : list A) l1 x l2, a ++ b = l1 ++ x :: l2 ->
  (exists l, a = l1 ++ x :: l /\ l2 = l ++ b) \/ (exists l, l1 = a ++ l /\ b = l ++ x :: l2).
Proof.
  induction a as [|y a IH]; intros b l1 x l2 H.
  - right. exists l1. split; [reflexivity|exact H].
  - destruct l1 as [|z l1]; cbn [app] in H; inversion H; subst.
    + left. exists a. split; reflexivity.
    + destruct (IH _ _ _ _ H2) as [(l & -> & ->)|(l & -> & ->)].
      * left. exists l. split; reflexivity.
      * right. exists l. split; reflexivity.
Qed.
Lemma split_runs : forall runs l1 x l2, expand runs = l1 ++ x :: l2 ->
  exists A c B k, runs = A ++ (c, x) :: B /\ l1 = expand A ++ repeat x k /\ (k < Z.to_nat c)%nat.
Proof.
  unfold expand. induction runs as [|[c d] runs IH]; intros l1 x l2 H; cbn [flat_map fst snd] in H; [destruct l1; discriminate|].
  destruct (split_app _ _ _ _ _ _ H) as [(l & E & _)|(l & -> & E)].
  - apply split_repeat in E. destruct E as (-> & E & K). exists [], c, runs, (List.length l1). split; [reflexivity|]. split; [exact E|exact K].
  - destruct (IH _ _ _ E) as (A & c' & B & k & -> & -> & K). exists ((c, d) :: A), c', B, k. split; [reflexivity|].
    split; [|exact K]. cbn [flat_map fst snd]. rewrite app_assoc. reflexivity.
Qed.
Lemma count_expand : forall runs, Forall (fun r => 0 <= fst r) runs -> count (expand runs) = total runs.
Proof.
  unfold expand, total. induction 1 as [|[c d] runs H _ IH]; [reflexivity|]. cbn [flat_map map fst snd sum] in *.
  rewrite count_app, count_repeat, IH. lia.
Qed.
(** The values of the attribute lookup *)
Fixpoint starts (s : Z) (counts : list Z) : list Z := match counts with [] => [] | c :: r => s :: starts (s + c) r end.
Lemma starts_app : forall a s b, starts s (a ++ b) = starts s a ++ starts (s + sum a) b.
Proof.
  induction a as [|x a IH]; intros s b; cbn [app starts sum]; [rewrite Z.add_0_r; reflexivity|].
  rewrite IH. do 3 f_equal. lia.
Qed.
Lemma starts_count : forall l s, count (starts s l) = count l.
Proof. induction l as [|x l IH]; intros s; [reflexivity|]. cbn [starts]. rewrite !count_cons, IH. reflexivity. Qed.
Lemma sum_nonneg : forall l, Forall (fun x => 0 <= x) l -> 0 <= sum l.
Proof. induction 1; cbn [sum]; lia. Qed.
Lemma starts_low : forall l s, Forall (fun x => 0 <= x) l -> Forall (fun x => s <= x) (starts s l).
Proof.
  induction l as [|x l IH]; intros s H; cbn [starts]; constructor; inversion H; subst; [lia|].
  eapply Forall_impl; [|apply IH; assumption]. cbn. intros. lia.
Qed.
Lemma starts_high : forall l s n, Forall (fun x => 0 <= x) l -> s + sum l <= n -> Forall (fun x => x <= n) (starts s l).
Proof.
  induction l as [|x l IH]; intros s n H E; cbn [starts sum] in *; constructor; inversion H; subst.
  - pose proof (sum_nonneg l H3). lia.
  - apply IH; [assumption|lia].
Qed.
(** The search finds the run that a sample is in. *)
Lemma find_run : forall A c B n k, Forall (fun x => 0 <= x) (A ++ c :: B) -> sum A < n <= sum A + c -> k = count (A ++ c :: B) ->
  find_entry k (starts 1 (A ++ c :: B)) n = Ok (count A + 1) /\ py_idx (starts 1 (A ++ c :: B)) (count A) = Ok (1 + sum A).
Proof.
  intros A c B n k H R ->. apply Forall_app in H. destruct H as (HA & HB). inversion HB; subst.
  split.
  - replace (A ++ c :: B) with ((A ++ [c]) ++ B) by (rewrite <- app_assoc; reflexivity). rewrite starts_app, sum_app. cbn [sum].
    replace (count A + 1) with (count (starts 1 (A ++ [c]))) by (rewrite starts_count, count_app; reflexivity).
    apply find_ok.
    + rewrite starts_app. apply Forall_app. split.
      * apply starts_high; [assumption|lia].
      * cbn [starts]. constructor; [lia|constructor].
    + eapply Forall_impl; [|apply starts_low; assumption]. cbv beta. intros. lia.
    + rewrite !count_app, !starts_count, count_app. reflexivity.
  - rewrite starts_app. cbn [starts]. apply idx_mid. rewrite starts_count. reflexivity.
Qed.

(** The rows as they are read *)
Definition flat (runs : list (Z * Z)) : list Z := flat_map (fun r => [fst r; snd r]) runs.
Fixpoint cums (s : Z) (runs : list (Z * Z)) : list (Z * Z * Z) :=
  match runs with [] => [] | (c, d) :: r => (c, d, s) :: cums (s + c * d) r end.
Lemma stts_rows_ok : forall runs last index cum,
  stts_rows last index cum (flat runs) =
  (cums (match last with Some (c, d) => cum + c * d | None => cum end) runs,
   starts (match last with Some (c, _) => index + c | None => index end) (map fst runs)).
Proof.
  induction runs as [|[c d] runs IH]; intros last index cum; [reflexivity|]. cbn [flat flat_map app fst snd stts_rows map starts cums].
  change (flat_map (fun r => [fst r; snd r]) runs) with (flat runs). rewrite IH. destruct last as [[c' d']|]; reflexivity.
Qed.
Lemma ctts_rows_ok : forall runs last index,
  ctts_rows last index (flat runs) = (runs, starts (match last with Some c => index + c | None => index end) (map fst runs)).
Proof.
  induction runs as [|[c d] runs IH]; intros last index; [reflexivity|]. cbn [flat flat_map app fst snd ctts_rows map starts].
  change (flat_map (fun r => [fst r; snd r]) runs) with (flat runs). rewrite IH. destruct last as [c'|]; reflexivity.
Qed.
Lemma cums_app : forall a s b, cums s (a ++ b) = cums s a ++ cums (s + sum (map (fun r => fst r * snd r) a)) b.
Proof.
  induction a as [|[c d] a IH]; intros s b; cbn [app cums map sum fst snd]; [rewrite Z.add_0_r; reflexivity|].
  rewrite IH. do 3 f_equal. lia.
Qed.
Lemma cums_count : forall a s, count (cums s a) = count a.
Proof. induction a as [|[c d] a IH]; intros s; [reflexivity|]. cbn [cums]. rewrite !count_cons, IH. reflexivity. Qed.
Lemma sum_expand : forall runs, Forall (fun r => 0 <= fst r) runs -> sum (expand runs) = sum (map (fun r => fst r * snd r) runs).
Proof.
  unfold expand. induction 1 as [|[c d] runs H _ IH]; [reflexivity|]. cbn [flat_map map fst snd sum] in *.
  rewrite sum_app, sum_repeat, IH, Z2Nat.id by exact H. reflexivity.
Qed.
Lemma rows_flat : forall runs, rows runs = flat_map be32 (flat runs).
Proof.
  unfold rows, flat. induction runs as [|[c d] runs IH]; [reflexivity|]. cbn [flat_map app fst snd]. rewrite IH, <- app_assoc. reflexivity.
Qed.
Lemma flat_u32 : forall runs, Forall (fun r => u32 (fst r) /\ u32 (snd r)) runs -> Forall u32 (flat runs).
Proof. unfold flat. induction 1 as [|r runs (A & B) _ IH]; [constructor|]. cbn [flat_map app]. constructor; [exact A|]. constructor; [exact B|exact IH]. Qed.
Lemma flat_count : forall runs, count (flat runs) = 2 * count runs.
Proof. unfold flat. induction runs as [|r runs IH]; [reflexivity|]. cbn [flat_map app]. rewrite !count_cons, IH. lia. Qed.
Lemma runs_nonneg : forall runs, Forall (fun r => u32 (fst r) /\ u32 (snd r)) runs -> Forall (fun r => 0 <= fst r) runs.
Proof. intros runs H. eapply Forall_impl; [|exact H]. cbn. unfold u32. intros r ((A & _) & _). exact A. Qed.
Lemma runs_nonneg' : forall runs, Forall (fun r : Z * Z => 0 <= fst r) runs -> Forall (fun x => 0 <= x) (map fst runs).
Proof. induction 1; constructor; auto. Qed.

(** ** Chunks *)
Definition flat3 (es : list entry) : list Z := flat_map (fun e => [first_chunk e; per_chunk e; snd e]) es.
Fixpoint cruns (n : Z) (es : list entry) : list (Z * Z) :=
  match es with [] => [] | e :: rest => (next_first n rest - first_chunk e, per_chunk e) :: cruns n rest end.
Definition prods (runs : list (Z * Z)) : list Z := map (fun r => fst r * snd r) runs.
Lemma stsc_rows_ok : forall n es last index, stsc_rows last index (flat3 es) =
  (map fst es, starts (index + match last with Some (f, p) => (next_first n es - f) * p | None => 0 end) (prods (cruns n es))).
Proof.
  induction es as [|[[f p] d] es IH]; intros last index; [reflexivity|].
  cbn [flat3 flat_map app first_chunk per_chunk fst snd stsc_rows map cruns prods starts].
  change (flat_map (fun e => [first_chunk e; per_chunk e; snd e]) es) with (flat3 es). rewrite IH.
  replace (match last with Some (f0, p0) => index + (f - f0) * p0 | None => index end)
    with (index + match last with Some (f0, p0) => (next_first n ((f, p, d) :: es) - f0) * p0 | None => 0 end)
    by (destruct last as [[f0 p0]|]; cbn [next_first first_chunk fst]; lia).
  reflexivity.
Qed.
Lemma chunk_sizes_runs : forall n es, chunk_sizes n es = expand (cruns n es).
Proof. unfold expand. induction es as [|e es IH]; [reflexivity|]. cbn [chunk_sizes cruns flat_map fst snd]. rewrite IH. reflexivity. Qed.
Lemma cruns_split : forall n A c x B es, cruns n es = A ++ (c, x) :: B ->
  exists EA e EB, es = EA ++ e :: EB /\ count EA = count A /\ per_chunk e = x /\ first_chunk e = next_first n es + sum (map fst A).
Proof.
  intros n. induction A as [|[a y] A IH]; intros c x B es H; destruct es as [|e es]; try discriminate; cbn [cruns app] in H; inversion H; subst.
  - exists [], e, es. split; [reflexivity|]. split; [reflexivity|]. split; [reflexivity|]. cbn [next_first map sum]. lia.
  - destruct (IH _ _ _ _ H3) as (EA & e' & EB & -> & C & P & F). exists (e :: EA), e', EB. split; [reflexivity|].
    split; [rewrite !count_cons, C; reflexivity|]. split; [exact P|]. rewrite F. cbn [next_first map fst sum]. lia.
Qed.
Lemma cruns_nonneg : forall n es, ascending n es -> Forall (fun r => 0 <= fst r) (cruns n es).
Proof. induction es as [|e es IH]; intros H; cbn [cruns]; constructor; destruct H as (H & H'); [cbn [fst]; lia|exact (IH H')]. Qed.
Lemma cruns_prods : forall n es, ascending n es -> Forall (fun e => u32 (first_chunk e) /\ u32 (per_chunk e) /\ u32 (snd e)) es ->
  Forall (fun x => 0 <= x) (prods (cruns n es)).
Proof.
  unfold prods. induction es as [|e es IH]; intros H U; cbn [cruns map]; constructor; destruct H as (H & H'); inversion U as [|? ? (_ & (P & _) & _) U']; subst.
  - cbn [fst snd]. apply Z.mul_nonneg_nonneg; lia.
  - exact (IH H' U').
Qed.
Lemma cruns_count : forall n es, count (cruns n es) = count es.
Proof. induction es as [|e es IH]; [reflexivity|]. cbn [cruns]. rewrite !count_cons, IH. reflexivity. Qed.
Lemma flat3_bytes : forall es, flat_map (fun e => be32 (first_chunk e) ++ be32 (per_chunk e) ++ be32 (snd e)) es = flat_map be32 (flat3 es).
Proof. unfold flat3. induction es as [|e es IH]; [reflexivity|]. cbn [flat_map app]. rewrite IH, <- !app_assoc. reflexivity. Qed.
Lemma flat3_u32 : forall es, Forall (fun e => u32 (first_chunk e) /\ u32 (per_chunk e) /\ u32 (snd e)) es -> Forall u32 (flat3 es).
Proof. unfold flat3. induction 1 as [|r es (A & B & C) _ IH]; [constructor|]. cbn [flat_map app]. repeat (constructor; [assumption|]). exact IH. Qed.
Lemma flat3_count : forall es, count (flat3 es) = 3 * count es.
Proof. unfold flat3. induction es as [|r es IH]; [reflexivity|]. cbn [flat_map app]. rewrite !count_cons, IH. lia. Qed.
Lemma next_first_cons : forall n m e es, next_first n (e :: es) = next_first m (e :: es).
Proof. reflexivity. Qed.
(** The chunk of a sample *)
Lemma chunk_ok : forall es lens l1 size l2 i, chunks_are es lens -> lens = l1 ++ size :: l2 -> 0 <= i < size ->
  chunk_and_index (mk_stsc (count es) (map fst es) (starts 1 (prods (cruns (count lens) es)))) (sum l1 + i + 1) = Ok (count l1 + 1, i).
Proof.
  intros es lens l1 size l2 i (U & C & F & Asc & E) EL Hi. rewrite EL in E at 2. rewrite chunk_sizes_runs in E.
  set (n := count lens) in *. clearbody n.
  destruct (split_runs _ _ _ _ E) as (A & c & B & k & R & -> & K).
  destruct (cruns_split _ _ _ _ _ _ R) as (EA & e & EB & Ees & CA & P & Fe).
  pose proof (cruns_nonneg _ _ Asc) as N. rewrite R in N. apply Forall_app in N. destruct N as (NA & NB).
  pose proof (cruns_prods _ _ Asc U) as NP. rewrite R in NP |- *. unfold prods in NP |- *. rewrite map_app in NP |- *. cbn [map fst snd] in NP |- *.
  assert (S1 : sum (expand A ++ repeat size k) = sum (map (fun r => fst r * snd r) A) + Z.of_nat k * size)
    by (rewrite sum_app, sum_repeat, sum_expand by exact NA; reflexivity).
  assert (C1 : count (expand A ++ repeat size k) = sum (map fst A) + Z.of_nat k)
    by (rewrite count_app, count_repeat, count_expand by exact NA; reflexivity).
  rewrite S1, C1. set (SA := sum (map (fun r => fst r * snd r) A)) in *.
  assert (KC : Z.of_nat k + 1 <= c) by lia.
  assert (KS : (Z.of_nat k + 1) * size <= c * size) by (apply Z.mul_le_mono_nonneg_r; lia).
  destruct (find_run (map (fun r => fst r * snd r) A) (c * size) (map (fun r => fst r * snd r) B) (SA + Z.of_nat k * size + i + 1) (count es) NP) as (Q1 & Q2).
  - fold SA. nia.
  - rewrite <- (cruns_count n es), R. rewrite !count_app, !count_cons. unfold count. rewrite !map_length. reflexivity.
  - unfold chunk_and_index. cbn [sc_count sc_lookup sc_entries]. rewrite Q1. cbn [bind].
    assert (CM : count (map (fun r : Z * Z => fst r * snd r) A) = count A) by (unfold count; rewrite map_length; reflexivity).
    rewrite CM in *. replace (count A + 1 - 1) with (count A) by lia. rewrite Q2. cbn [bind]. fold SA.
    rewrite Ees at 1. rewrite map_app. cbn [map]. rewrite idx_mid by (rewrite <- CA; unfold count; rewrite map_length; reflexivity). cbn [bind].
    destruct e as [[f p] d]. unfold first_chunk, per_chunk in *. cbn [fst snd] in *. subst p.
    replace (SA + Z.of_nat k * size + i + 1 - (1 + SA)) with (i + Z.of_nat k * size) by lia.
    rewrite py_div_ok, py_mod_ok by lia. cbn [bind]. rewrite Z.div_add, Z.mod_add, Z.div_small, Z.mod_small by lia.
    f_equal. f_equal. rewrite Fe. assert (X : next_first n es = 1) by (destruct es; [destruct EA; discriminate|exact F]). lia.
Qed.

(** ** Sizes *)
Lemma acc_app : forall a t b, accumulate t (a ++ b) = accumulate t a ++ accumulate (t + sum a) b.
Proof.
  induction a as [|x a IH]; intros t b; cbn [app accumulate sum]; [rewrite Z.add_0_r; reflexivity|]. rewrite IH. do 3 f_equal. lia.
Qed.
Lemma acc_count : forall a t, count (accumulate t a) = count a.
Proof. induction a as [|x a IH]; intros t; [reflexivity|]. cbn [accumulate]. rewrite !count_cons, IH. reflexivity. Qed.
Lemma acc_idx : forall a x b i, i = count a -> py_idx (accumulate 0 (a ++ x :: b)) i = Ok (sum a).
Proof. intros a x b i ->. rewrite acc_app. cbn [accumulate]. apply idx_mid. rewrite acc_count. reflexivity. Qed.
