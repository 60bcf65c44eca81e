From Verif Require Import Base BaseProofs BytesModel BytesProofs TimelineModel VodModel VodSpec CheckModel CheckSpec.
Open Scope Z_scope.

(** the entries one after the other *)
Definition said (l : option entry) (e : entry) : list (Z * Z) :=
  match l with
  | Some l => let last_end := e_start l + e_dur l * (e_rep l + 1) in
              if negb (last_end =? e_start e) then [(e_start e, last_end)] else []
  | None => []
  end.
Fixpoint table_gaps (l : option entry) (tab : list entry) : list (Z * Z) :=
  match tab with [] => [] | e :: r => (said l e ++ table_gaps (Some e) r)%list end.

Lemma check_table : forall fuel data tab l, read_entries fuel data = Ok tab -> check_loop fuel data l = (table_gaps l tab, None).
Proof.
  induction fuel as [|f IH]; intros data tab l H; destruct data as [|x data]; cbn [read_entries check_loop] in *;
    try (injection H as <-; reflexivity).
  destruct (blen (btake 12 (x :: data)) =? 12); [|discriminate].
  destruct (read_entries f (bdrop 12 (x :: data))) as [r|] eqn:E; cbn [bind] in H; [|discriminate]. injection H as <-.
  rewrite (IH _ _ _ E). reflexivity.
Qed.
Lemma check_cut : forall fuel data tab l rest fuel', read_entries fuel data = Ok tab -> (List.length data <= fuel)%nat ->
  rest <> [] -> blen rest < 12 -> (List.length data + List.length rest <= fuel')%nat ->
  check_loop fuel' (data ++ rest) l = (table_gaps l tab, Some "struct.error"%string).
Proof.
  induction fuel as [|f IH]; intros data tab l rest fuel' H F R L F'.
  - destruct data; [|cbn in F; lia]. cbn [read_entries] in H. injection H as <-. destruct rest as [|y rest]; [congruence|].
    destruct fuel'; [cbn in F'; lia|]. cbn [app check_loop]. unfold btake. rewrite firstn_all2 by (unfold blen in L; lia).
    destruct (Z.eqb_spec (blen (y :: rest)) 12); [lia|]. reflexivity.
  - destruct data as [|x data].
    + cbn [read_entries] in H. injection H as <-. destruct rest as [|y rest]; [congruence|].
      destruct fuel'; [cbn in F'; lia|]. cbn [app check_loop]. unfold btake. rewrite firstn_all2 by (unfold blen in L; lia).
      destruct (Z.eqb_spec (blen (y :: rest)) 12); [lia|]. reflexivity.
    + cbn [read_entries] in H. destruct (Z.eqb_spec (blen (btake 12 (x :: data))) 12) as [B|]; [|discriminate].
      destruct (read_entries f (bdrop 12 (x :: data))) as [r|] eqn:E; cbn [bind] in H; [|discriminate]. injection H as <-.
      assert (B' : (12 <= List.length (x :: data))%nat).
      { unfold btake, blen in B. rewrite firstn_length in B. change (Z.to_nat 12) with 12%nat in B. lia. }
      assert (T : btake 12 ((x :: data) ++ rest) = btake 12 (x :: data)).
      { unfold btake. rewrite firstn_app. change (Z.to_nat 12) with 12%nat. replace (12 - List.length (x :: data))%nat with 0%nat by lia.
        rewrite firstn_O, app_nil_r. reflexivity. }
      assert (D : bdrop 12 ((x :: data) ++ rest) = (bdrop 12 (x :: data) ++ rest)%list).
      { unfold bdrop. rewrite skipn_app. change (Z.to_nat 12) with 12%nat. replace (12 - List.length (x :: data))%nat with 0%nat by lia. reflexivity. }
      destruct fuel' as [|f']; [cbn in F'; lia|].
      change ((x :: data) ++ rest)%list with (x :: data ++ rest)%list in *. cbn [check_loop]. rewrite T, D.
      destruct (Z.eqb_spec (blen (btake 12 (x :: data))) 12) as [_|X]; [|contradiction].
      assert (LD : List.length (bdrop 12 (x :: data)) = (List.length (x :: data) - 12)%nat) by (unfold bdrop; rewrite skipn_length; reflexivity).
      rewrite (IH _ _ _ rest f' E); [reflexivity| | | |]; auto; rewrite LD; cbn [List.length] in *; lia.
Qed.

(** the segments one after the other *)
Definition link (s n : seg) : list (Z * Z) := if s_start n =? s_end s then [] else [(s_start n, s_end s)].
Lemma gaps_cons : forall s n r, gaps (s :: n :: r) = (link s n ++ gaps (n :: r))%list.
Proof. intros. unfold link. change (gaps (s :: n :: r)) with (if s_start n =? s_end s then gaps (n :: r) else (s_start n, s_end s) :: gaps (n :: r)). destruct (s_start n =? s_end s); reflexivity. Qed.
Lemma gaps_app : forall a s n b, gaps (a ++ s :: n :: b) = (gaps (a ++ [s]) ++ link s n ++ gaps (n :: b))%list.
Proof.
  induction a as [|x a IH]; intros s n b.
  - cbn [app]. rewrite gaps_cons. reflexivity.
  - destruct a as [|y a].
    + cbn [app]. rewrite !gaps_cons. change (gaps [s]) with (@nil (Z * Z)). rewrite app_nil_r, <- ?app_assoc. reflexivity.
    + specialize (IH s n b). cbn [app] in *. rewrite !gaps_cons, IH, <- app_assoc. reflexivity.
Qed.
(** all but the last segment of an entry, and the last one *)
Definition seg_at (e : entry) (k : nat) : seg := (e_nr e + Z.of_nat k, e_start e + Z.of_nat k * e_dur e, e_dur e).
Definition part (e : entry) (a n : nat) : list seg := map (seg_at e) (seq a n).
Lemma part_gaps : forall n e a, gaps (part e a n) = [].
Proof.
  induction n as [|n IH]; intros e a; [reflexivity|]. destruct n as [|n]; [reflexivity|].
  specialize (IH e (S a)). change (part e a (S (S n))) with (seg_at e a :: seg_at e (S a) :: part e (S (S a)) n).
  change (part e (S a) (S n)) with (seg_at e (S a) :: part e (S (S a)) n) in IH.
  rewrite gaps_cons, IH, app_nil_r. unfold link, seg_at, s_end, s_start, s_dur.
  cbn [fst snd]. destruct (Z.eqb_spec (e_start e + Z.of_nat (S a) * e_dur e) (e_start e + Z.of_nat a * e_dur e + e_dur e)); [reflexivity|lia].
Qed.
Lemma expand_last : forall e, 0 <= e_rep e -> expand e = (part e 0 (Z.to_nat (e_rep e)) ++ [seg_at e (Z.to_nat (e_rep e))])%list /\
  exists r, expand e = seg_at e 0 :: r.
Proof.
  intros e H. unfold expand. replace (Z.to_nat (e_rep e + 1)) with (S (Z.to_nat (e_rep e))) by lia. split.
  - rewrite seq_S, map_app. reflexivity.
  - cbn [seq map]. eexists. reflexivity.
Qed.
Lemma table_segments : forall tab e, 0 <= e_rep e -> Forall (fun e => 0 <= e_rep e) tab ->
  gaps (expand e ++ expansion tab) = table_gaps (Some e) tab.
Proof.
  induction tab as [|f tab IH]; intros e E F.
  - unfold expansion. cbn [flat_map table_gaps]. rewrite app_nil_r. apply part_gaps.
  - inversion F as [|? ? P F']; subst. unfold expansion. cbn [flat_map table_gaps]. fold (expansion tab).
    destruct (expand_last e E) as [EL _]. destruct (expand_last f P) as [_ [r ER]].
    rewrite EL. rewrite <- app_assoc. cbn [app]. rewrite <- (IH f P F'). rewrite ER. cbn [app]. rewrite gaps_app, <- EL.
    assert (G : gaps (expand e) = []) by apply part_gaps. rewrite G. cbn [app]. f_equal.
    unfold link, said, seg_at, s_end, s_start, s_dur. cbn [fst snd]. cbv zeta. rewrite Z2Nat.id by exact E.
    replace (e_start f + Z.of_nat 0 * e_dur f) with (e_start f) by lia.
    replace (e_start e + e_rep e * e_dur e + e_dur e) with (e_start e + e_dur e * (e_rep e + 1)) by lia.
    rewrite (Z.eqb_sym (e_start f)). destruct (e_start e + e_dur e * (e_rep e + 1) =? e_start f); reflexivity.
Qed.
Lemma table_expansion : forall tab, Forall (fun e => 0 <= e_rep e) tab -> table_gaps None tab = gaps (expansion tab).
Proof.
  intros [|e tab] F; [reflexivity|]. inversion F; subst. cbn [table_gaps said app]. symmetry. apply table_segments; assumption.
Qed.
Lemma le_nonneg : forall b, bytes_ok b -> 0 <= le_val b.
Proof. induction 1 as [|x b X B IH]; cbn [le_val]; [lia|]. unfold byte_ok in X. lia. Qed.
Lemma ok_take : forall n b, bytes_ok b -> bytes_ok (btake n b).
Proof. intros n b H. unfold btake. apply Forall_forall. intros x I. rewrite <- (firstn_skipn (Z.to_nat n) b) in H. apply Forall_app in H. destruct H as [H _]. rewrite Forall_forall in H. auto. Qed.
Lemma ok_drop : forall n b, bytes_ok b -> bytes_ok (bdrop n b).
Proof. intros n b H. unfold bdrop. apply Forall_forall. intros x I. rewrite <- (firstn_skipn (Z.to_nat n) b) in H. apply Forall_app in H. destruct H as [_ H]. rewrite Forall_forall in H. auto. Qed.
Lemma read_nonneg : forall fuel data tab, bytes_ok data -> read_entries fuel data = Ok tab -> Forall (fun e => 0 <= e_rep e) tab.
Proof.
  induction fuel as [|f IH]; intros data tab B H; destruct data as [|x data]; cbn [read_entries] in H; try (injection H as <-; constructor).
  destruct (blen (btake 12 (x :: data)) =? 12); [|discriminate].
  destruct (read_entries f (bdrop 12 (x :: data))) as [r|] eqn:E; cbn [bind] in H; [|discriminate]. injection H as <-.
  constructor; [|exact (IH _ _ (ok_drop 12 _ B) E)]. cbn [e_rep]. apply le_nonneg. unfold bslice. apply ok_take, ok_drop, ok_take, B.
Qed.
Lemma gaps_gapless : forall l, gaps l = [] <-> gapless l.
Proof.
  induction l as [|s l IH]; [split; [intros _ a ? ? ? E; destruct a; discriminate|reflexivity]|]. destruct l as [|n l].
  - split; [|reflexivity]. intros _ a s' n' b E. destruct a as [|? [|? a]]; discriminate.
  - rewrite gaps_cons. unfold link. destruct (Z.eqb_spec (s_start n) (s_end s)) as [X|X].
    + cbn [app]. rewrite IH. split.
      * intros G a s' n' b E. destruct a as [|y a]; [injection E as <- <- <-; exact X|]. injection E as _ E. exact (G a s' n' b E).
      * intros G a s' n' b E. apply (G (s :: a) s' n' b). rewrite E. reflexivity.
    + split; [discriminate|]. intros G. exfalso. apply X. exact (G [] s n l eq_refl).
Qed.
