(** Lemmas for C82. *)
From Coq Require Import ZifyBool ZifyNat Sorted.
From Verif Require Import Base BaseProofs BytesModel BytesProofs BoxSpec ChunkModel ChunkParse BoxesModel LangModel ReadersModel NavModel NavSpec.
Open Scope Z_scope.

(** ** Sizes *)
Lemma be32_len : forall z, blen (be32 z) = 4.
Proof. reflexivity. Qed.
Lemma node_bytes_eq : forall t h ks, node_bytes (Part t h ks) = be32 (8 + blen (h ++ file_bytes ks)) ++ t ++ h ++ file_bytes ks.
Proof. reflexivity. Qed.
Lemma file_cons : forall k r, file_bytes (k :: r) = node_bytes k ++ file_bytes r.
Proof. reflexivity. Qed.
Lemma node_size_eq : forall t h ks, blen t = 4 -> node_size (Part t h ks) = 8 + blen h + blen (file_bytes ks).
Proof. intros. unfold node_size. rewrite node_bytes_eq, !blen_app, be32_len. lia. Qed.
Lemma trees_eq : forall ks o, (fix go (l : list node) (o : Z) : list pbox := match l with [] => [] | k :: r => tree_at k o :: go r (o + node_size k) end) ks o = trees_at ks o.
Proof. reflexivity. Qed.
Lemma tree_eq : forall t h ks o, tree_at (Part t h ks) o = PBox (named t) (node_size (Part t h ks)) o (trees_at ks (o + 8 + blen h)).
Proof. reflexivity. Qed.
Lemma readables_eq : forall data ks o before, (fix go (l : list node) (o : Z) (before : list pbox) : Prop :=
     match l with [] => True | k :: r => readable data k o before /\ go r (o + node_size k) (before ++ [tree_at k o]) end) ks o before = all_readable data ks o before.
Proof. intros data. induction ks as [|k ks IH]; intros o before; [reflexivity|]. cbn [all_readable]. rewrite <- IH. reflexivity. Qed.
Lemma readable_eq : forall data t h ks o before, readable data (Part t h ks) o before =
  (constructor data (named t) o (node_size (Part t h ks)) before = Ok (named t) /\ all_readable data ks (o + 8 + blen h) []).
Proof. intros. rewrite <- readables_eq. reflexivity. Qed.

(** ** Types *)
Lemma holder_types : forall t n, In (t, n) holders -> blen t = 4 /\ bytes_in (named t) container_boxes = true /\ child_pos (named t) = 8 + n /\ utf8_ok (named t) = true /\ named t <> bstr "root".
Proof.
  intros t n H. unfold holders in H. cbn [map app In] in H.
  repeat (destruct H as [H|H]; [inversion H; subst; vm_compute; repeat split; discriminate|]). contradiction.
Qed.
Lemma named_spelled : forall t, named t = spelled t.
Proof. reflexivity. Qed.
Lemma ascii_utf8 : forall t, Forall (fun x => 0 <= x <= 127) t -> utf8_ok t = true.
Proof. intros t H. induction H as [|x t Hx _ IH]; [reflexivity|]. cbn [utf8_ok]. destruct (Z.leb_spec x 127); [exact IH|lia]. Qed.
Lemma leaf_types : forall t, Forall (fun x => 0 <= x <= 127) t -> ~ In t reserved_names -> (forall n, ~ In (t, n) holders) ->
  named t = t /\ bytes_in (named t) container_boxes = false /\ utf8_ok (named t) = true.
Proof.
  intros t A R H. assert (N : named t = t).
  { unfold named. destruct (bytes_eqb t (bstr "ac-3")) eqn:E; [apply bytes_eqb_eq in E; subst; exfalso; apply (H 28); vm_compute; auto 40|].
    destruct (bytes_eqb t (bstr "ec-3")) eqn:E2; [apply bytes_eqb_eq in E2; subst; exfalso; apply (H 28); vm_compute; auto 40|]. reflexivity. }
  rewrite N. split; [reflexivity|]. split; [|apply ascii_utf8; exact A].
  destruct (bytes_in t container_boxes) eqn:E; [|reflexivity]. exfalso. apply bytes_in_iff in E. unfold container_boxes in E. cbn [In] in E.
  repeat (destruct E as [E|E]; [subst t; first [apply R; vm_compute; auto 10; fail | eapply H; vm_compute; eauto 40; fail]|]). contradiction.
Qed.

(** ** Parsing *)
Definition made (n : node) : Prop := blen (n_type n) = 4 /\ utf8_ok (named (n_type n)) = true /\ node_size n < 4294967296 /\
  ((bytes_in (named (n_type n)) container_boxes = false /\ n_kids n = [])
   \/ (bytes_in (named (n_type n)) container_boxes = true /\ child_pos (named (n_type n)) = 8 + blen (n_head n) /\ n_kids n <> [] /\ Forall well_made (n_kids n))).
Lemma well_made_made : forall n, well_made n -> made n.
Proof.
  intros n H. destruct H as [t p L A R H S|t k head kids H Hh K F S]; unfold made; cbn [n_type n_kids n_head].
  - destruct (leaf_types t A R H) as (N & C & U). split; [exact L|]. split; [exact U|]. split; [|left; split; [exact C|reflexivity]].
    rewrite node_size_eq by exact L. change (blen (file_bytes [])) with 0. lia.
  - destruct (holder_types t k H) as (L & C & P & U & _). split; [exact L|]. split; [exact U|]. split; [exact S|]. right. rewrite Hh. auto.
Qed.

Lemma parse_made : forall fuel data pre post l o self_size end_ done, data = pre ++ file_bytes l ++ post -> o = blen pre -> l <> [] -> Forall well_made l ->
  end_ = o + blen (file_bytes l) -> blen (file_bytes l) <= self_size -> (List.length (file_bytes l) < fuel)%nat -> all_readable data l o done ->
  parse_children fuel data self_size o end_ done = Ok (done ++ trees_at l o).
Proof.
  induction fuel as [|fuel IH]; intros data pre post l o self_size end_ done D O N W E SS F R; [lia|].
  destruct l as [|k r]; [contradiction|]. inversion W as [|? ? Wk Wr]; subst x l. pose proof (well_made_made k Wk) as (L & U & B & K).
  destruct k as [t h ks]. cbn [n_type n_head n_kids] in *. rewrite file_cons in D. pose proof (node_size_eq t h ks L) as Sz.
  pose proof (blen_nonneg h) as Ph. pose proof (blen_nonneg (file_bytes ks)) as Pk. pose proof (blen_nonneg (file_bytes r)) as Pr.
  assert (LB : blen (file_bytes (Part t h ks :: r)) = node_size (Part t h ks) + blen (file_bytes r)) by (rewrite file_cons, blen_app; reflexivity).
  assert (S8 : 8 + blen (h ++ file_bytes ks) = node_size (Part t h ks)) by (rewrite blen_app; lia).
  assert (D1 : data = pre ++ be32 (node_size (Part t h ks)) ++ (t ++ h ++ file_bytes ks ++ file_bytes r ++ post)).
  { rewrite D, node_bytes_eq, S8, <- !app_assoc. reflexivity. }
  cbn [parse_children]. replace (u32_at data o) with (@Ok Z (node_size (Part t h ks))).
  2:{ rewrite D1. symmetry. apply u32_at_ok; [exact O|lia]. }
  cbn [bind]. cbv zeta.
  assert (T : bslice (o + 4) (o + 8) data = t).
  { rewrite D1, app_assoc. apply slice_at; rewrite blen_app, be32_len; lia. }
  rewrite T, L. cbn [Z.eqb Pos.eqb negb]. change (4 =? 4) with true. cbn [negb].
  destruct (Z.eqb_spec (node_size (Part t h ks)) 1); [lia|]. cbn [bind].
  destruct (Z.ltb_spec self_size (node_size (Part t h ks))); [lia|]. destruct (Z.ltb_spec (node_size (Part t h ks)) 8); [lia|]. cbn [orb].
  rewrite <- named_spelled, U. cbn [negb]. cbn [all_readable] in R. destruct R as [Rk Rr]. rewrite readable_eq in Rk. destruct Rk as [C Rk]. rewrite C. cbn [bind].
  assert (Kids : (if bytes_in (named t) container_boxes then parse_children fuel data (node_size (Part t h ks)) (o + child_pos (named t)) (o + node_size (Part t h ks)) [] else Ok [])
                 = Ok (trees_at ks (o + 8 + blen h))).
  { destruct K as [[-> ->]|(-> & P & Nk & Fk)]; [reflexivity|]. rewrite P. replace (o + (8 + blen h)) with (o + 8 + blen h) by lia.
    apply (IH data (pre ++ be32 (node_size (Part t h ks)) ++ t ++ h) (file_bytes r ++ post) ks); try assumption.
    - rewrite D1, <- !app_assoc. reflexivity.
    - rewrite !blen_app, be32_len. lia.
    - lia.
    - lia.
    - rewrite file_cons, app_length, node_bytes_eq, !app_length in F. cbn [List.length be32] in F. unfold file_bytes in *. lia. }
  rewrite Kids. cbn [bind]. rewrite <- tree_eq.
  destruct r as [|k2 r].
  - replace (end_ <=? o + node_size (Part t h ks)) with true; [reflexivity|]. symmetry. apply Z.leb_le. change (blen (file_bytes [])) with 0 in LB. lia.
  - assert (P8 : 8 <= blen (file_bytes (k2 :: r))).
    { inversion Wr as [|? ? W2 _]; subst. pose proof (well_made_made k2 W2) as (L2 & _). destruct k2 as [t2 h2 ks2]. cbn [n_type] in L2.
      rewrite file_cons, blen_app. change (blen (node_bytes (Part t2 h2 ks2))) with (node_size (Part t2 h2 ks2)). rewrite node_size_eq by exact L2.
      pose proof (blen_nonneg h2). pose proof (blen_nonneg (file_bytes ks2)). pose proof (blen_nonneg (file_bytes r)). lia. }
    replace (end_ <=? o + node_size (Part t h ks)) with false by (symmetry; apply Z.leb_gt; lia).
    rewrite (IH data (pre ++ node_bytes (Part t h ks)) post (k2 :: r)); try assumption.
    + cbn [trees_at]. rewrite <- app_assoc. reflexivity.
    + rewrite D, <- !app_assoc. reflexivity.
    + rewrite blen_app. unfold node_size. lia.
    + discriminate.
    + lia.
    + lia.
    + rewrite file_cons, app_length in F. rewrite node_bytes_eq, !app_length in F. cbn [List.length be32] in F. unfold file_bytes in *. cbn [map List.concat] in *. lia.
Qed.

(** ** Finding *)
Fixpoint walk (p : place) (path : list bytes) : list place :=
  match path with [] => [p] | t :: r => flat_map (fun q => walk q r) (matching_children p t) end.
Definition walks (queue : list (place * list bytes)) : list place := flat_map (fun i => walk (fst i) (snd i)) queue.
Definition weight (p : place) : nat := match p with b :: _ => boxes_in b | [] => 1%nat end.
Definition weights (queue : list (place * list bytes)) : nat := fold_right (fun i n => (weight (fst i) + n)%nat) O queue.
Lemma kids_weight : forall p t rest, (weights (map (fun k => (k, rest)) (matching_children p t)) < weight p)%nat.
Proof.
  intros p t rest. destruct p as [|[bt bs bo kids] r]; [cbn; lia|]. unfold matching_children. cbn [weight boxes_in p_kids].
  generalize (PBox bt bs bo kids :: r). intros p. induction kids as [|k kids IH]; [cbn; lia|].
  assert (F : forall l, fold_right (fun k n => (boxes_in k + n)%nat) O (k :: l) = (boxes_in k + fold_right (fun k n => (boxes_in k + n)%nat) O l)%nat) by reflexivity.
  rewrite F. cbn [filter]. destruct (bytes_eqb (p_type k) t); [|lia].
  cbn [map]. unfold weights in *. cbn [fold_right fst]. cbn [weight] in *. lia.
Qed.
Lemma weights_app : forall a b, weights (a ++ b) = (weights a + weights b)%nat.
Proof. intros a b. induction a as [|x a IH]; [reflexivity|]. cbn [app weights fold_right] in *. unfold weights in *. cbn [fold_right]. lia. Qed.
Lemma walks_map : forall l rest, walks (map (fun k => (k, rest)) l) = flat_map (fun q => walk q rest) l.
Proof. intros l rest. induction l as [|x l IH]; [reflexivity|]. cbn [map walks flat_map fst snd]. f_equal. exact IH. Qed.
Lemma walks_app : forall a b, walks (a ++ b) = walks a ++ walks b.
Proof. intros. unfold walks. apply flat_map_app. Qed.
Lemma flat_map_one : forall {A} (l : list A), flat_map (fun q => [q]) l = l.
Proof. intros A l. induction l as [|x l IH]; [reflexivity|]. cbn. f_equal. exact IH. Qed.
Lemma weight_pos : forall p, (1 <= weight p)%nat.
Proof. intros [|[? ? ? ?] ?]; cbn; lia. Qed.
Lemma loop_all : forall fuel queue matches, (weights queue < fuel)%nat -> Forall (fun i => snd i <> []) queue -> find_loop fuel false queue matches = Ok (matches ++ walks queue).
Proof.
  induction fuel as [|fuel IH]; intros queue matches F P; [lia|]. cbn [find_loop]. destruct queue as [|[p parts] queue]; [rewrite app_nil_r; reflexivity|].
  inversion P as [|? ? P1 P2]; subst. cbn [snd] in P1. destruct parts as [|t rest]; [contradiction|].
  assert (F2 : (weight p + weights queue < S fuel)%nat) by exact F. pose proof (weight_pos p).
  change (walks ((p, t :: rest) :: queue)) with (flat_map (fun q => walk q rest) (matching_children p t) ++ walks queue).
  pose proof (kids_weight p t rest) as Kw. destruct (matching_children p t) as [|m ms] eqn:M.
  - rewrite IH by (assumption || lia). reflexivity.
  - destruct rest as [|u rest].
    + change (fun q => walk q []) with (fun q : place => [q]). rewrite flat_map_one, IH by (assumption || lia). rewrite app_assoc. reflexivity.
    + rewrite IH.
      * rewrite walks_app, walks_map. reflexivity.
      * rewrite weights_app. lia.
      * apply Forall_app. split; [|exact P2]. apply Forall_forall. intros i I. apply in_map_iff in I. destruct I as (k & <- & _). discriminate.
Qed.
Lemma loop_first : forall fuel queue, (weights queue < fuel)%nat -> Forall (fun i => snd i <> []) queue -> find_loop fuel true queue [] = Ok (firstn 1 (walks queue)).
Proof.
  induction fuel as [|fuel IH]; intros queue F P; [lia|]. cbn [find_loop]. destruct queue as [|[p parts] queue]; [reflexivity|].
  inversion P as [|? ? P1 P2]; subst. cbn [snd] in P1. destruct parts as [|t rest]; [contradiction|].
  assert (F2 : (weight p + weights queue < S fuel)%nat) by exact F. pose proof (weight_pos p).
  change (walks ((p, t :: rest) :: queue)) with (flat_map (fun q => walk q rest) (matching_children p t) ++ walks queue).
  pose proof (kids_weight p t rest) as Kw. destruct (matching_children p t) as [|m ms] eqn:M.
  - rewrite IH by (assumption || lia). reflexivity.
  - destruct rest as [|u rest].
    + reflexivity.
    + rewrite IH.
      * rewrite walks_app, walks_map. reflexivity.
      * rewrite weights_app. lia.
      * apply Forall_app. split; [|exact P2]. apply Forall_forall. intros i I. apply in_map_iff in I. destruct I as (k & <- & _). discriminate.
Qed.
Lemma find_all_walk : forall p path, p <> [] -> path <> [] -> find_all p path = Ok (walk p path).
Proof.
  intros p path P N. unfold find_all. destruct p as [|b r]; [contradiction|]. rewrite loop_all.
  - unfold walks. cbn [flat_map fst snd app]. rewrite app_nil_r. reflexivity.
  - unfold weights. cbn [fold_right fst weight]. lia.
  - constructor; [exact N|constructor].
Qed.
Lemma find_first_walk : forall p path, p <> [] -> path <> [] -> find_first p path = Ok (hd_error (walk p path)).
Proof.
  intros p path P N. unfold find_first. destruct p as [|b r]; [contradiction|]. rewrite loop_first.
  - unfold walks. cbn [flat_map fst snd app]. rewrite app_nil_r. cbn [bind]. destruct (walk (b :: r) path); reflexivity.
  - unfold weights. cbn [fold_right fst weight]. lia.
  - constructor; [exact N|constructor].
Qed.
Lemma walk_reached : forall path p q, In q (walk p path) <-> reached p path q.
Proof.
  induction path as [|t path IH]; intros p q.
  - cbn [walk In]. split; [intros [<-|[]]; constructor|]. intros H. inversion H; subst. left. reflexivity.
  - cbn [walk]. rewrite in_flat_map. split.
    + intros (m & I & J). destruct p as [|b r]; [destruct I|]. cbn [matching_children] in I. apply in_map_iff in I. destruct I as (k & <- & I). apply filter_In in I. destruct I as [I T].
      apply bytes_eqb_eq in T. apply IH in J. econstructor; eassumption.
    + intros H. inversion H as [|b r k t' rest q' I T J]; subst. exists (k :: b :: r). split; [|apply IH; exact J].
      cbn [matching_children]. apply in_map_iff. exists k. split; [reflexivity|]. apply filter_In. split; [exact I|apply bytes_eqb_refl].
Qed.

(** ** Order *)
Definition fits (lo hi : Z) (l : list place) : Prop := in_file_order l /\ Forall (fun p => lo <= offset_of p < hi) l.
Lemma fits_app : forall lo mid hi a b, fits lo mid a -> fits mid hi b -> lo <= mid -> mid <= hi -> fits lo hi (a ++ b).
Proof.
  intros lo mid hi a b [S1 F1] [S2 F2] H1 H2. split.
  - induction a as [|x a IH]; [exact S2|]. inversion S1 as [|? ? S3 S4]; subst. inversion F1 as [|? ? F3 F4]; subst. cbn [app]. constructor; [apply IH; assumption|].
    apply Forall_app. split; [exact S4|]. rewrite Forall_forall in *. intros y Y. specialize (F2 y Y). lia.
  - apply Forall_app. split; rewrite Forall_forall in *; intros y Y; [specialize (F1 y Y)|specialize (F2 y Y)]; lia.
Qed.
Lemma node_size_pos : forall n, 0 < node_size n.
Proof.
  intros [t h ks]. unfold node_size. rewrite node_bytes_eq, !blen_app, be32_len. pose proof (blen_nonneg t). pose proof (blen_nonneg h). pose proof (blen_nonneg (file_bytes ks)). lia.
Qed.
Lemma file_size_nonneg : forall l, 0 <= blen (file_bytes l).
Proof. intros. apply blen_nonneg. Qed.
Definition four (n : node) : Prop := blen (n_type n) = 4.
Inductive all_four : node -> Prop := all_four_intro : forall t h ks, blen t = 4 -> Forall all_four ks -> all_four (Part t h ks).
Lemma made_four : forall n, well_made n -> all_four n.
Proof.
  fix IH 2. intros n H. destruct H as [t p L A R H S|t k head kids H Hh K F S].
  - constructor; [exact L|constructor].
  - constructor; [apply (holder_types t k H)|]. clear - F IH. induction F as [|x l Hx F IHF]; constructor; [apply IH; exact Hx|exact IHF].
Qed.
Lemma walk_fits : forall path n o anc, all_four n -> fits o (o + node_size n) (walk (tree_at n o :: anc) path).
Proof.
  induction path as [|t path IH]; intros n o anc A; pose proof (node_size_pos n) as P.
  - cbn [walk]. split; [repeat constructor|]. constructor; [|constructor]. destruct n as [t h ks]. rewrite tree_eq. cbn [offset_of p_offset]. lia.
  - destruct n as [nt h ks]. inversion A as [? ? ? L F]; subst. cbn [walk]. rewrite tree_eq at 1. cbn [matching_children p_kids].
    set (b := tree_at (Part nt h ks) o) in *. rewrite <- tree_eq. fold b. rewrite node_size_eq in * by exact L. pose proof (blen_nonneg h).
    assert (G : forall l o', Forall all_four l -> fits o' (o' + blen (file_bytes l)) (flat_map (fun q => walk q path) (map (fun k => k :: b :: anc) (filter (fun k => bytes_eqb (p_type k) t) (trees_at l o'))))).
    { clear - IH. induction l as [|k l IHl]; intros o' F; [split; constructor|]. inversion F as [|? ? Fk Fl]; subst. cbn [trees_at filter].
      rewrite file_cons, blen_app. change (blen (node_bytes k)) with (node_size k). pose proof (node_size_pos k). pose proof (file_size_nonneg l). specialize (IHl (o' + node_size k) Fl).
      replace (o' + node_size k + blen (file_bytes l)) with (o' + (node_size k + blen (file_bytes l))) in IHl by lia.
      destruct (bytes_eqb (p_type (tree_at k o')) t).
      - cbn [map flat_map]. eapply fits_app; [apply IH; exact Fk|exact IHl|lia|lia].
      - change (flat_map (fun q => walk q path) (map (fun k => k :: b :: anc) (filter (fun k => bytes_eqb (p_type k) t) (trees_at l (o' + node_size k))))) with
          ([] ++ flat_map (fun q => walk q path) (map (fun k => k :: b :: anc) (filter (fun k => bytes_eqb (p_type k) t) (trees_at l (o' + node_size k))))).
        eapply fits_app; [|exact IHl|lia|lia]. split; constructor. }
    specialize (G ks (o + 8 + blen h) F). destruct G as [G1 G2]. split; [exact G1|]. rewrite Forall_forall in *. intros q Q. specialize (G2 q Q). lia.
Qed.
Lemma file_walk_fits : forall l path, Forall all_four l -> path <> [] -> in_file_order (walk [file_tree l] path).
Proof.
  intros l path F N. destruct path as [|t path]; [contradiction|]. cbn [walk]. unfold file_tree. cbn [matching_children p_kids].
  set (b := PBox _ _ _ _).
  assert (G : forall m o', Forall all_four m -> fits o' (o' + blen (file_bytes m)) (flat_map (fun q => walk q path) (map (fun k => k :: [b]) (filter (fun k => bytes_eqb (p_type k) t) (trees_at m o'))))).
  { clearbody b. clear. intros l. induction l as [|k l IHl]; intros o' F; [split; constructor|]. inversion F as [|? ? Fk Fl]; subst. cbn [trees_at filter].
    rewrite file_cons, blen_app. change (blen (node_bytes k)) with (node_size k). pose proof (node_size_pos k). pose proof (file_size_nonneg l). specialize (IHl (o' + node_size k) Fl).
    replace (o' + node_size k + blen (file_bytes l)) with (o' + (node_size k + blen (file_bytes l))) in IHl by lia.
    destruct (bytes_eqb (p_type (tree_at k o')) t).
    - cbn [map flat_map]. eapply fits_app; [apply walk_fits; exact Fk|exact IHl|lia|lia].
    - change (flat_map (fun q => walk q path) (map (fun k => k :: [b]) (filter (fun k => bytes_eqb (p_type k) t) (trees_at l (o' + node_size k))))) with
          ([] ++ flat_map (fun q => walk q path) (map (fun k => k :: [b]) (filter (fun k => bytes_eqb (p_type k) t) (trees_at l (o' + node_size k))))).
      eapply fits_app; [|exact IHl|lia|lia]. split; constructor. }
  apply (G l 0 F).
Qed.
