From Verif Require Import Base BaseProofs BytesModel BytesProofs CritModel CritSpec.
Open Scope Z_scope.

Lemma beqb_spec : forall a b, bytes_eqb a b = true <-> a = b.
Proof.
  intros a b. split.
  - revert b. induction a as [|x a IH]; intros [|y b] H; cbn in H; try discriminate; [reflexivity|].
    apply andb_prop in H. destruct H as [H1 H2]. apply Z.eqb_eq in H1. f_equal; auto.
  - intros ->. induction b as [|y b IH]; [reflexivity|]. cbn. rewrite Z.eqb_refl. exact IH.
Qed.
Lemma existsb_not : forall z l, ~ In z l -> existsb (Z.eqb z) l = false.
Proof.
  induction l as [|x l IH]; intros H; [reflexivity|]. cbn [existsb]. destruct (Z.eqb_spec z x) as [->|]; [exfalso; apply H; left; reflexivity|].
  cbn [orb]. apply IH. intros I. apply H. right. exact I.
Qed.
Lemma split_ok : forall k v, ~ In 61 k -> ~ In 61 v -> split_eq (k ++ 61 :: v) = Ok (k, v).
Proof.
  induction k as [|c k IH]; intros v K V.
  - cbn [app split_eq]. change (61 =? 61) with true. cbv iota. rewrite existsb_not by exact V. reflexivity.
  - cbn [app split_eq]. destruct (Z.eqb_spec c 61) as [->|]; [exfalso; apply K; left; reflexivity|].
    rewrite IH by (try exact V; intros I; apply K; right; exact I). reflexivity.
Qed.
Lemma attribute_value : forall o k v, value_of o k v <-> attribute k (o_attrs o) = Ok v.
Proof.
  intros o k v. unfold value_of. generalize (o_attrs o). intros l. split.
  - intros (a & b & -> & N). induction a as [|[k' v'] a IH]; cbn [app attribute].
    + replace (bytes_eqb k k) with true by (symmetry; apply beqb_spec; reflexivity). reflexivity.
    + destruct (bytes_eqb k' k) eqn:E; [apply beqb_spec in E; subst; exfalso; apply N; left; reflexivity|]. apply IH. intros I. apply N. right. exact I.
  - induction l as [|[k' v'] l IH]; cbn [attribute]; [discriminate|]. destruct (bytes_eqb k' k) eqn:E.
    + intros H. injection H as ->. apply beqb_spec in E. subst. exists [], l. split; [reflexivity|]. intros [].
    + intros H. destruct (IH H) as (a & b & -> & N). exists ((k', v') :: a), b. split; [reflexivity|].
      intros [I|I]; [cbn in I; subst; rewrite (proj2 (beqb_spec k k) eq_refl) in E; discriminate|exact (N I)].
Qed.
(** what a criterion says of a box, as a function *)
Definition sat (c : criterion) (o : obj) : bool :=
  match c with
  | Plain t => bytes_eqb (o_type o) t
  | With t k v => bytes_eqb (o_type o) t && match attribute k (o_attrs o) with Ok w => bytes_eqb w v | Err _ => false end
  end.
Lemma sat_meets : forall c o, sat c o = true <-> meets c o.
Proof.
  intros [t|t k v] o; cbn [sat meets]; [apply beqb_spec|]. rewrite andb_true_iff, beqb_spec, attribute_value.
  destruct (attribute k (o_attrs o)) as [w|e]; [rewrite beqb_spec|]; (split; intros [A B]; (split; [exact A|])); congruence.
Qed.
Lemma crit_len : forall c, crit_ok c -> (blen (crit_text c) =? 4) = match c with Plain _ => true | With _ _ _ => false end.
Proof.
  intros [t|t k v] H; cbn [crit_text crit_ok] in *; [apply Z.eqb_eq; exact H|]. destruct H as (L & _). rewrite !blen_app, L.
  change (blen [91]) with 1. pose proof (blen_nonneg k). pose proof (blen_nonneg ([61] ++ v ++ [93])). rewrite ?blen_app in *.
  apply Z.eqb_neq. change (blen [61]) with 1 in *. pose proof (blen_nonneg v). change (blen [93]) with 1 in *. lia.
Qed.
Definition has (c : criterion) (o : obj) : Prop :=
  match c with Plain _ => True | With t k _ => o_type o = t -> exists w, value_of o k w end.
Lemma match_ok : forall c o, crit_ok c -> has c o -> match_box o (crit_text c) = Ok (sat c o).
Proof.
  intros c o C H. unfold match_box. rewrite (crit_len c C). destruct c as [t|t k v]; [reflexivity|]. cbn [crit_ok crit_text sat has] in *. destruct C as (L & K & V).
  assert (E : existsb (Z.eqb 91) (t ++ [91] ++ k ++ [61] ++ v ++ [93]) = true).
  { apply existsb_exists. exists 91. split; [|reflexivity]. apply in_or_app. right. left. reflexivity. }
  rewrite E.
  assert (T : btake 4 (t ++ [91] ++ k ++ [61] ++ v ++ [93]) = t).
  { unfold btake. rewrite firstn_app. unfold blen in L. replace (Z.to_nat 4) with (List.length t) by lia. rewrite firstn_all, Nat.sub_diag. cbn [firstn]. apply app_nil_r. }
  rewrite T.
  assert (S : bslice 5 (blen (t ++ [91] ++ k ++ [61] ++ v ++ [93]) - 1) (t ++ [91] ++ k ++ [61] ++ v ++ [93]) = k ++ 61 :: v).
  { replace (t ++ [91] ++ k ++ [61] ++ v ++ [93]) with ((t ++ [91]) ++ (k ++ 61 :: v) ++ [93]) by (rewrite <- !app_assoc; reflexivity).
    set (a := t ++ [91]). set (b := k ++ 61 :: v). assert (LA : blen a = 5) by (unfold a; rewrite blen_app, L; reflexivity).
    unfold bslice, btake, bdrop. rewrite !blen_app, LA. change (blen [93]) with 1. unfold blen in *.
    replace (Z.to_nat 5) with (List.length a) by lia. rewrite skipn_app, skipn_all, Nat.sub_diag. cbn [skipn app].
    replace (Z.to_nat (5 + (Z.of_nat (List.length b) + 1) - 1 - 5)) with (List.length b) by lia.
    rewrite firstn_app, firstn_all, Nat.sub_diag. cbn [firstn]. apply app_nil_r. }
  rewrite S. destruct (bytes_eqb (o_type o) t) eqn:B; [|reflexivity]. unfold match_attribute. rewrite split_ok by assumption. cbn [bind andb].
  apply beqb_spec in B. destruct (H B) as (w & W). apply attribute_value in W. rewrite W. reflexivity.
Qed.
Lemma matching_ok : forall l c, crit_ok c -> Forall (has c) l -> matching l (crit_text c) = Ok (filter (sat c) l).
Proof.
  intros l c C H. induction H as [|o l O F IH]; [reflexivity|]. cbn [matching filter]. rewrite match_ok by assumption. cbn [bind]. rewrite IH. reflexivity.
Qed.
Fixpoint select (path : list criterion) (o : obj) : list obj :=
  match path with
  | [] => []
  | c :: r => let l := filter (sat c) (o_children o) in match r with [] => l | _ => flat_map (select r) l end
  end.
Lemma select_reached : forall path o x, In x (select path o) <-> reached path o x.
Proof.
  induction path as [|c r IH]; intros o x; [split; [intros []|intros H; inversion H]|].
  cbn [select]. destruct r as [|d r].
  - rewrite filter_In, sat_meets. split; [intros [A B]; constructor; assumption|]. intros H. inversion H as [c' o' x' A B|c' r' o' y x' A B C]; subst; [auto|inversion C].
  - rewrite in_flat_map. split.
    + intros (y & A & B). apply filter_In in A. rewrite sat_meets in A. destruct A as [A1 A2]. apply (reached_step c (d :: r) o y x A1 A2). apply IH, B.
    + intros H. inversion H as [|c' r' o' y x' A B C]; subst. exists y. split; [apply filter_In; rewrite sat_meets; auto|]. apply IH, C.
Qed.
Lemma answers_has : forall c r o, answers (c :: r) o -> Forall (has c) (o_children o).
Proof.
  intros c r o H. apply Forall_forall. intros x I. destruct c as [t|t k v]; [exact Logic.I|]. cbn [has]. intros T.
  apply (H t k v x); [left; reflexivity|constructor; exact I|exact T].
Qed.
Lemma answers_child : forall c r o y, answers (c :: r) o -> In y (o_children o) -> answers r y.
Proof. intros c r o y H I t k v x A B T. apply (H t k v x); [right; exact A|exact (below_deeper o y x I B)|exact T]. Qed.
Definition weight (q : list (obj * list bytes)) : nat := list_sum (map (fun e => boxes (fst e)) q).
Lemma boxes_children : forall o, boxes o = S (list_sum (map boxes (o_children o))).
Proof. intros [t a l]. reflexivity. Qed.
Lemma weight_sub : forall l f (r : list bytes), (weight (map (fun x => (x, r)) (filter f l)) <= list_sum (map boxes l))%nat.
Proof.
  induction l as [|x l IH]; intros f r; [apply le_n|]. cbn [filter map]. specialize (IH f r). unfold weight, list_sum in *. 
  destruct (f x); cbn [map fold_right fst] in *; lia.
Qed.
Lemma weight_app : forall a b, weight (a ++ b) = (weight a + weight b)%nat.
Proof. intros. unfold weight. rewrite map_app, list_sum_app. reflexivity. Qed.

(** one entry of the queue *)
Definition good (e : obj * list criterion) : Prop := snd e <> [] /\ Forall crit_ok (snd e) /\ answers (snd e) (fst e).
Definition texts (q : list (obj * list criterion)) : list (obj * list bytes) := map (fun e => (fst e, map crit_text (snd e))) q.
Definition chosen (q : list (obj * list criterion)) : list obj := flat_map (fun e => select (snd e) (fst e)) q.
Lemma good_children : forall o c d r, good (o, c :: d :: r) ->
  Forall good (map (fun x => (x, d :: r)) (filter (sat c) (o_children o))).
Proof.
  intros o c d r (_ & F & A). cbn [fst snd] in *. inversion F as [|? ? C F']; subst. apply Forall_forall. intros e I. apply in_map_iff in I. destruct I as (y & <- & I).
  apply filter_In in I. destruct I as [I _]. split; [discriminate|]. split; [exact F'|]. cbn [fst snd]. exact (answers_child c (d :: r) o y A I).
Qed.
Lemma texts_app : forall a b, texts (a ++ b) = (texts a ++ texts b)%list. Proof. intros. apply map_app. Qed.
Lemma texts_map : forall l r, texts (map (fun x => (x, r)) l) = map (fun x => (x, map crit_text r)) l.
Proof. intros. unfold texts. rewrite map_map. reflexivity. Qed.
Lemma chosen_map : forall l r, chosen (map (fun x => (x, r)) l) = flat_map (select r) l.
Proof. induction l as [|x l IH]; intros r; [reflexivity|]. cbn [map]. unfold chosen in *. cbn [flat_map fst snd]. rewrite IH. reflexivity. Qed.
Lemma chosen_app : forall a b, chosen (a ++ b) = (chosen a ++ chosen b)%list. Proof. intros. apply flat_map_app. Qed.
Lemma all_found : forall fuel q m, (weight (texts q) <= fuel)%nat -> Forall good q ->
  find_loop fuel false (texts q) m = Ok (m ++ chosen q)%list.
Proof.
  induction fuel as [|f IH]; intros q m W G.
  - destruct q as [|[o p] q]; [cbn; rewrite app_nil_r; reflexivity|]. exfalso. unfold weight, list_sum in W. cbn [texts map fst fold_right] in W. rewrite boxes_children in W. lia.
  - destruct q as [|[o p] q]; [cbn; rewrite app_nil_r; reflexivity|]. inversion G as [|? ? G1 G2]; subst.
    pose proof G1 as (N & F & A). cbn [fst snd] in *. destruct p as [|c r]; [contradiction|]. inversion F as [|? ? C F']; subst.
    assert (W' : (list_sum (map boxes (o_children o)) + weight (texts q) <= f)%nat).
    { unfold weight, list_sum in *. cbn [texts map fst fold_right] in W. rewrite boxes_children in W. unfold list_sum, texts in *. lia. }
    cbn [texts map fst snd find_loop]. fold (texts q). rewrite (matching_ok _ _ C (answers_has _ _ _ A)). cbn [bind].
    assert (NIL : truthy (crit_text c) (filter (sat c) (o_children o)) = false -> filter (sat c) (o_children o) = []).
    { unfold truthy. destruct (blen (crit_text c) =? 4); [|discriminate]. destruct (filter (sat c) (o_children o)); [reflexivity|discriminate]. }
    destruct r as [|d r]; cbn [map].
    + cbn [chosen flat_map fst snd select]. fold (chosen q). destruct (truthy _ _).
      * rewrite IH by (try exact G2; lia). rewrite <- app_assoc. reflexivity.
      * rewrite (NIL eq_refl). apply IH; [lia|exact G2].
    + assert (K : chosen ((o, c :: d :: r) :: q) = (chosen (map (fun x => (x, d :: r)) (filter (sat c) (o_children o))) ++ chosen q)%list).
      { rewrite chosen_map. reflexivity. }
      rewrite K. destruct (truthy _ _).
      * change (crit_text d :: map crit_text r) with (map crit_text (d :: r)). rewrite <- texts_map, <- texts_app. rewrite IH.
        -- rewrite chosen_app. reflexivity.
        -- rewrite texts_app, weight_app, texts_map. pose proof (weight_sub (o_children o) (sat c) (map crit_text (d :: r))). lia.
        -- apply Forall_app. split; [exact (good_children o c d r G1)|exact G2].
      * rewrite (NIL eq_refl). apply IH; [lia|exact G2].
Qed.
(** with return_first, if the last part of the paths is a type only *)
Definition plain_end (p : list criterion) : Prop := exists t, last p (Plain []) = Plain t.
Lemma first_found : forall fuel q, (weight (texts q) <= fuel)%nat -> Forall good q -> Forall (fun e => plain_end (snd e)) q ->
  find_loop fuel true (texts q) [] = Ok (firstn 1 (chosen q)).
Proof.
  induction fuel as [|f IH]; intros q W G P.
  - destruct q as [|[o p] q]; [reflexivity|]. exfalso. unfold weight, list_sum in W. cbn [texts map fst fold_right] in W. rewrite boxes_children in W. lia.
  - destruct q as [|[o p] q]; [reflexivity|]. inversion G as [|? ? G1 G2]; subst. inversion P as [|? ? P1 P2]; subst.
    pose proof G1 as (N & F & A). cbn [fst snd] in *. destruct p as [|c r]; [contradiction|]. inversion F as [|? ? C F']; subst.
    assert (W' : (list_sum (map boxes (o_children o)) + weight (texts q) <= f)%nat).
    { unfold weight, list_sum in *. cbn [texts map fst fold_right] in W. rewrite boxes_children in W. unfold list_sum, texts in *. lia. }
    cbn [texts map fst snd find_loop]. fold (texts q). rewrite (matching_ok _ _ C (answers_has _ _ _ A)). cbn [bind].
    assert (NIL : truthy (crit_text c) (filter (sat c) (o_children o)) = false -> filter (sat c) (o_children o) = []).
    { unfold truthy. destruct (blen (crit_text c) =? 4); [|discriminate]. destruct (filter (sat c) (o_children o)); [reflexivity|discriminate]. }
    destruct r as [|d r]; cbn [map].
    + destruct P1 as (t & E). cbn [last] in E. subst c. cbn [chosen flat_map fst snd select]. fold (chosen q). unfold truthy in *. rewrite (crit_len _ C) in *.
      destruct (filter (sat (Plain t)) (o_children o)) as [|x l]; [|reflexivity]. cbn [app]. apply IH; [lia|exact G2|exact P2].
    + assert (K : chosen ((o, c :: d :: r) :: q) = (chosen (map (fun x => (x, d :: r)) (filter (sat c) (o_children o))) ++ chosen q)%list).
      { rewrite chosen_map. reflexivity. }
      rewrite K. destruct (truthy _ _).
      * change (crit_text d :: map crit_text r) with (map crit_text (d :: r)). rewrite <- texts_map, <- texts_app. rewrite IH.
        -- rewrite chosen_app. reflexivity.
        -- rewrite texts_app, weight_app, texts_map. pose proof (weight_sub (o_children o) (sat c) (map crit_text (d :: r))). lia.
        -- apply Forall_app. split; [exact (good_children o c d r G1)|exact G2].
        -- apply Forall_app. split; [|exact P2]. apply Forall_forall. intros e I. apply in_map_iff in I. destruct I as (y & <- & _). exact P1.
      * rewrite (NIL eq_refl). apply IH; [lia|exact G2|exact P2].
Qed.
(** the direct look-up gives the same *)
Lemma find_first_filter : forall {A} (f : A -> bool) l, match List.find f l with Some x => [x] | None => [] end = firstn 1 (filter f l).
Proof. intros A f. induction l as [|x l IH]; [reflexivity|]. cbn [List.find filter]. destruct (f x); [reflexivity|exact IH]. Qed.
Lemma find_same : forall path o first, Forall crit_ok path -> answers path o ->
  find o (map crit_text path) first = find_general o (map crit_text path) first.
Proof.
  intros path o first F A. destruct path as [|c [|d r]]; [reflexivity| |reflexivity]. inversion F as [|? ? C _]; subst.
  cbn [map find]. rewrite (crit_len c C). destruct c as [t|t k v]; [|reflexivity].
  unfold find_general. rewrite boxes_children. cbn [find_loop]. rewrite (matching_ok _ _ C (answers_has _ _ _ A)). cbn [bind].
  unfold truthy. rewrite (crit_len _ C). cbn [crit_text]. change (fun x => bytes_eqb (o_type x) t) with (sat (Plain t)).
  pose proof (find_first_filter (sat (Plain t)) (o_children o)) as E.
  destruct first.
  - destruct (List.find _ _), (filter _ _); cbn [firstn] in E; try discriminate E; [injection E as ->; reflexivity|destruct (list_sum _); reflexivity].
  - destruct (filter _ _); destruct (list_sum _); reflexivity.
Qed.
