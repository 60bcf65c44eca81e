(** Subtitle times (C33). *)
From Coq Require Import ZifyBool ZifyNat.
From Verif Require Import Base BaseProofs BytesModel BytesProofs TimeModel TimeProofs TtmlModel TtmlSpec.
Open Scope Z_scope.

Lemma two_ok : forall n r, 0 <= n < 100 -> two_digits (two n ++ r) = Some (n, r).
Proof.
  intros n r H. unfold two. cbn [app two_digits]. unfold bdigit.
  assert (D := Z.div_mod n 10 ltac:(lia)). assert (M := Z.mod_pos_bound n 10 ltac:(lia)).
  destruct ((48 <=? 48 + n / 10) && (48 + n / 10 <=? 57)) eqn:E1; [|lia].
  destruct ((48 <=? 48 + n mod 10) && (48 + n mod 10 <=? 57)) eqn:E2; [|lia].
  f_equal. f_equal. lia.
Qed.
Lemma two_inv : forall b n r, two_digits b = Some (n, r) -> 0 <= n < 100 /\ b = two n ++ r.
Proof.
  intros b n r H. destruct b as [|x [|y b]]; try discriminate. cbn [two_digits] in H. unfold bdigit in H.
  destruct ((48 <=? x) && (x <=? 57)) eqn:E1; [|discriminate]. destruct ((48 <=? y) && (y <=? 57)) eqn:E2; [|discriminate].
  injection H as <- <-. split; [lia|]. unfold two. cbn [app].
  assert (A : ((x - 48) * 10 + (y - 48)) / 10 = x - 48) by (symmetry; apply Z.div_unique with (y - 48); lia).
  assert (B : ((x - 48) * 10 + (y - 48)) mod 10 = y - 48) by (symmetry; apply Z.mod_unique with (x - 48); lia).
  rewrite A, B. f_equal; [lia|]. f_equal. lia.
Qed.
Definition hms_text (h m s : Z) : bytes := two h ++ [58] ++ two m ++ [58] ++ two s.
Lemma hms_ok : forall h m s r, 0 <= h < 100 -> 0 <= m < 100 -> 0 <= s < 100 ->
  match_hms (hms_text h m s ++ r) = Some (s + 60 * m + 3600 * h, r).
Proof.
  intros h m s r H M S. unfold hms_text, match_hms. rewrite <- !app_assoc. rewrite two_ok by auto. cbn [app].
  rewrite two_ok by auto. cbn [app]. rewrite two_ok by auto. reflexivity.
Qed.
Lemma hms_inv : forall b t r, match_hms b = Some (t, r) -> exists h m s, 0 <= h < 100 /\ 0 <= m < 100 /\ 0 <= s < 100 /\
  b = hms_text h m s ++ r /\ t = s + 60 * m + 3600 * h.
Proof.
  intros b t r H. unfold match_hms in H. destruct (two_digits b) as [[h r1]|] eqn:E1; [|discriminate].
  destruct r1 as [|c r1]; [discriminate|]. destruct (Z.eq_dec c 58) as [->|N].
  2:{ destruct c as [|p|p]; try discriminate. repeat (destruct p as [p|p|]; try discriminate). congruence. }
  destruct (two_digits r1) as [[m r2]|] eqn:E2; [|discriminate]. destruct r2 as [|c r2]; [discriminate|].
  destruct (Z.eq_dec c 58) as [->|N].
  2:{ destruct c as [|p|p]; try discriminate. repeat (destruct p as [p|p|]; try discriminate). congruence. }
  destruct (two_digits r2) as [[s r3]|] eqn:E3; [|discriminate]. injection H as <- <-.
  apply two_inv in E1, E2, E3. destruct E1 as [A1 ->], E2 as [A2 ->], E3 as [A3 ->].
  exists h, m, s. split; [auto|]. split; [auto|]. split; [auto|]. split; [|reflexivity].
  unfold hms_text. rewrite <- !app_assoc. reflexivity.
Qed.
Lemma strip_ok : forall p r, strip_prefix p (p ++ r) = Some r.
Proof. induction p; intros; [reflexivity|]. cbn [app strip_prefix]. rewrite Z.eqb_refl. auto. Qed.
Lemma strip_inv : forall p b r, strip_prefix p b = Some r -> b = p ++ r.
Proof.
  induction p as [|x p IH]; intros b r H; [cbn in *; congruence|]. destruct b as [|y b]; [discriminate|].
  cbn [strip_prefix] in H. destruct (Z.eqb_spec x y); [|discriminate]. subst. cbn [app]. f_equal. auto.
Qed.

Lemma print_two : forall n, 0 <= n < 100 -> bstr (print_02d n) = two n.
Proof.
  intros n H. assert (K : exists k, n = Z.of_nat k /\ (k < 100)%nat) by (exists (Z.to_nat n); lia).
  destruct K as (k & -> & K). do 100 (destruct k as [|k]; [vm_compute; reflexivity|]). lia.
Qed.
Lemma print_hours : forall n, 0 <= n -> bstr (print_02d n) = hours n.
Proof.
  intros n H. unfold hours. destruct (Z.ltb_spec n 100); [apply print_two; lia|].
  unfold print_02d. destruct ((0 <=? n) && (n <? 10)) eqn:E; [lia|reflexivity].
Qed.
Lemma fmt_clock : forall t, 0 <= t -> fmt_hms t = clock t.
Proof.
  intros t H. unfold fmt_hms, clock, dec2.
  assert (D := Z.div_mod t 3600 ltac:(lia)). assert (M := Z.mod_pos_bound t 3600 ltac:(lia)).
  assert (A : t mod 3600 / 60 = t / 60 mod 60) by (Z.to_euclidean_division_equations; lia).
  assert (B : t mod 3600 mod 60 = t mod 60) by (Z.to_euclidean_division_equations; lia).
  rewrite A, B. rewrite print_hours by (apply Z.div_pos; lia).
  assert (M1 := Z.mod_pos_bound (t / 60) 60 ltac:(lia)). assert (M2 := Z.mod_pos_bound t 60 ltac:(lia)).
  rewrite !print_two by lia. reflexivity.
Qed.

Lemma stamp_text_eq : forall a, stamp_text a = (name_of a ++ eqquote) ++ hms_text (st_h a) (st_m a) (st_s a).
Proof. intros. unfold stamp_text. rewrite <- app_assoc. reflexivity. Qed.
Lemma attr_ok : forall name off h m s r, 0 <= h < 100 -> 0 <= m < 100 -> 0 <= s < 100 ->
  match_time_attr name off (((name ++ eqquote) ++ hms_text h m s) ++ r) =
  Some (name ++ eqquote ++ fmt_hms (s + 60 * m + 3600 * h + off), r).
Proof.
  intros name off h m s r H M S. unfold match_time_attr. rewrite <- app_assoc, strip_ok, hms_ok by auto. reflexivity.
Qed.
Lemma attr_inv : forall name off b o r, match_time_attr name off b = Some (o, r) ->
  exists h m s, 0 <= h < 100 /\ 0 <= m < 100 /\ 0 <= s < 100 /\ b = ((name ++ eqquote) ++ hms_text h m s) ++ r.
Proof.
  intros name off b o r H. unfold match_time_attr in H.
  destruct (strip_prefix (name ++ eqquote) b) as [r1|] eqn:E; [|discriminate]. apply strip_inv in E.
  destruct (match_hms r1) as [[t r2]|] eqn:F; [|discriminate]. apply hms_inv in F. destruct F as (h & m & s & A & B & C & F & _).
  injection H as _ <-. exists h, m, s. split; [auto|]. split; [auto|]. split; [auto|]. rewrite <- app_assoc. congruence.
Qed.
Lemma time_ok : forall off a r, stamp_ok a -> 0 <= seconds a + off ->
  match_time off (stamp_text a ++ r) = Some (moved_text off a, r).
Proof.
  intros off a r (H & M & S) P. unfold match_time, moved_text. rewrite stamp_text_eq.
  assert (E : st_s a + 60 * st_m a + 3600 * st_h a + off = seconds a + off) by (unfold seconds; lia).
  unfold name_of. destruct (st_begin a).
  - rewrite attr_ok by auto. rewrite E, fmt_clock by auto. reflexivity.
  - assert (X : match_time_attr (bstr "begin") off (((bstr "end" ++ eqquote) ++ hms_text (st_h a) (st_m a) (st_s a)) ++ r) = None)
      by reflexivity.
    rewrite X, attr_ok by auto. rewrite E, fmt_clock by auto. reflexivity.
Qed.
Lemma time_inv : forall off b o r, match_time off b = Some (o, r) -> exists a, stamp_ok a /\ b = stamp_text a ++ r.
Proof.
  intros off b o r H. unfold match_time in H. destruct (match_time_attr (bstr "begin") off b) as [[o1 r1]|] eqn:E.
  - injection H as -> ->. apply attr_inv in E. destruct E as (h & m & s & A & B & C & E).
    exists (mk_stamp true h m s). split; [repeat split; tauto|]. rewrite stamp_text_eq. exact E.
  - apply attr_inv in H. destruct H as (h & m & s & A & B & C & H).
    exists (mk_stamp false h m s). split; [repeat split; tauto|]. rewrite stamp_text_eq. exact H.
Qed.

(** Substitution over pieces. *)
Lemma render_len : forall A (f : A -> bytes) l, (forall a, f a <> []) -> (List.length l <= List.length (render f l))%nat.
Proof.
  intros A f l F. induction l as [|[x|a] l IH]; cbn [render]; [auto| |].
  - cbn [List.length]. lia.
  - rewrite app_length. assert (f a <> []) by auto. destruct (f a); [congruence|]. cbn [List.length]. lia.
Qed.
Lemma re_sub_pieces : forall A (ok : A -> bytes -> Prop) (f g : A -> bytes) m l fuel,
  (forall a, f a <> []) ->
  (forall b o r, m b = Some (o, r) -> exists a, ok a r /\ b = f a ++ r) ->
  m [] = None ->
  complete ok f l -> (forall a r, In a (stamps l) -> ok a r -> m (f a ++ r) = Some (g a, r)) ->
  (List.length (render f l) <= fuel)%nat ->
  re_sub m fuel (render f l) = render g l.
Proof.
  intros A ok f g m l fuel F INV NIL. revert fuel. induction l as [|[x|a] l IH]; intros fuel C G L.
  - cbn [render]. destruct fuel; cbn [re_sub]; [reflexivity|]. rewrite NIL. reflexivity.
  - cbn [render] in *. destruct C as [C1 C2]. destruct fuel; [cbn in L; lia|]. cbn [re_sub].
    destruct (m (x :: render f l)) as [[o r]|] eqn:E.
    + apply INV in E. destruct E as (a & OK & E). destruct (C1 _ _ E OK).
    + f_equal. apply IH; auto. cbn [List.length] in L. lia.
  - cbn [render] in *. destruct C as [C1 C2]. rewrite app_length in L.
    assert (NE : f a <> []) by auto. destruct fuel; [destruct (f a); [congruence|cbn in L; lia]|]. cbn [re_sub].
    rewrite G; auto; [|left; reflexivity]. f_equal. apply IH; auto.
    + intros b r I. apply G. right. auto.
    + destruct (f a); [congruence|]. cbn [List.length] in L. lia.
Qed.
Lemma stamp_nonempty : forall a, stamp_text a <> [].
Proof. intros a. unfold stamp_text, name_of. destruct (st_begin a); discriminate. Qed.

(** ** C33 *)
(** Every byte string is a document: cutting it at the stamps is possible. *)
Lemma C33_documents_pf : forall b, exists l, document l /\ render stamp_text l = b.
Proof.
  intros b. remember (List.length b) as n eqn:N. revert b N. induction n as [n IH] using lt_wf_ind. intros b N.
  destruct b as [|x b]; [exists []; split; [exact I|reflexivity]|].
  destruct (match_time 0 (x :: b)) as [[o r]|] eqn:E.
  - apply time_inv in E. destruct E as (a & A & E).
    destruct (IH (List.length r)) with (b := r) as (l & L & R).
    + rewrite N, E, app_length. assert (Q := stamp_nonempty a). destruct (stamp_text a); [congruence|cbn [List.length]; lia].
    + reflexivity.
    + exists (Hit a :: l). split; [split; [exact A|exact L]|]. cbn [render]. rewrite R. auto.
  - destruct (IH (List.length b)) with (b := b) as (l & L & R); [cbn [List.length] in N; lia|reflexivity|].
    exists (Plain x :: l). split; [split; [|exact L]|cbn [render]; congruence].
    intros a t H OK. rewrite R in H. rewrite H in E. unfold stamp_ok in OK.
    assert (K : match_time 0 (stamp_text a ++ t) = Some (moved_text 0 a, t)).
    { apply time_ok; auto. unfold seconds. lia. } congruence.
Qed.

Lemma times_shift : forall l off, document l -> Forall (fun a => 0 <= seconds a + off) (stamps l) ->
  sub_all (match_time off) (render stamp_text l) = render (moved_text off) l.
Proof.
  intros l off D P. unfold sub_all. apply re_sub_pieces with (ok := fun a _ => stamp_ok a); auto.
  - apply stamp_nonempty.
  - intros b o r H. apply time_inv in H. exact H.
  - intros a r I OK. apply time_ok; auto. rewrite Forall_forall in P. auto.
Qed.

(** Patterns. *)
Lemma starts_split : forall p q b, starts (p ++ q) b = true -> exists u v, b = u ++ v /\ List.length u = List.length p /\
  starts p u = true /\ starts q v = true.
Proof.
  induction p as [|c p IH]; intros q b H; [exists [], b; auto|]. destruct b as [|x b]; [discriminate|].
  cbn [app starts] in H. apply andb_prop in H. destruct H as [H1 H2]. apply IH in H2. destruct H2 as (u & v & -> & L & U & V).
  exists (x :: u), v. cbn [List.length starts app]. rewrite H1, U. auto.
Qed.
Lemma starts_app : forall p q u v, List.length u = List.length p -> starts (p ++ q) (u ++ v) = starts p u && starts q v.
Proof.
  induction p as [|c p IH]; intros q u v L; destruct u as [|x u]; try discriminate; [reflexivity|].
  cbn [app starts]. rewrite IH by (cbn in L; lia). rewrite andb_assoc. reflexivity.
Qed.
Lemma starts_lit : forall w v, starts (map Z.eqb w) v = true -> exists r, v = w ++ r.
Proof.
  induction w as [|x w IH]; intros v H; [exists v; reflexivity|]. destruct v as [|y v]; [discriminate|].
  cbn [map starts] in H. apply andb_prop in H. destruct H as [H1 H2]. apply IH in H2. destruct H2 as [r ->].
  exists r. cbn [app]. f_equal. lia.
Qed.
Lemma lit_starts : forall w r, starts (map Z.eqb w) (w ++ r) = true.
Proof. induction w as [|x w IH]; intros; [destruct r; reflexivity|]. cbn [map starts app]. rewrite Z.eqb_refl. apply IH. Qed.
Lemma digits_two : forall x y, digit x = true -> digit y = true -> exists n, 0 <= n < 100 /\ two n = [x; y].
Proof.
  intros x y X Y. unfold digit in *. exists ((x - 48) * 10 + (y - 48)). split; [lia|]. unfold two.
  assert (A : ((x - 48) * 10 + (y - 48)) / 10 = x - 48) by (symmetry; apply Z.div_unique with (y - 48); lia).
  assert (B : ((x - 48) * 10 + (y - 48)) mod 10 = y - 48) by (symmetry; apply Z.mod_unique with (x - 48); lia).
  rewrite A, B. f_equal; [lia|]. f_equal. lia.
Qed.
Lemma two_digit : forall n, 0 <= n < 100 -> digit (48 + n / 10) = true /\ digit (48 + n mod 10) = true.
Proof. intros. unfold digit. Z.to_euclidean_division_equations. lia. Qed.
Lemma starts_hms : forall b, starts hms_pattern b = true ->
  exists h m s r, 0 <= h < 100 /\ 0 <= m < 100 /\ 0 <= s < 100 /\ b = hms_text h m s ++ r.
Proof.
  intros b H. destruct b as [|x1 [|x2 [|x3 [|x4 [|x5 [|x6 [|x7 [|x8 b]]]]]]]]; cbn [hms_pattern starts] in H; try lia.
  rewrite !andb_true_iff in H. destruct H as (H1 & H2 & H3 & H4 & H5 & H6 & H7 & H8 & _).
  destruct (digits_two _ _ H1 H2) as (h & A & A'). destruct (digits_two _ _ H4 H5) as (m & B & B').
  destruct (digits_two _ _ H7 H8) as (s & C & C').
  exists h, m, s, b. split; [auto|]. split; [auto|]. split; [auto|]. unfold hms_text. rewrite A', B', C'.
  apply Z.eqb_eq in H3. apply Z.eqb_eq in H6. subst x3 x6. reflexivity.
Qed.
Lemma hms_starts : forall h m s r, 0 <= h < 100 -> 0 <= m < 100 -> 0 <= s < 100 -> starts hms_pattern (hms_text h m s ++ r) = true.
Proof.
  intros h m s r H M S. unfold hms_text, two. cbn [app hms_pattern starts].
  destruct (two_digit h H) as [-> ->]. destruct (two_digit m M) as [-> ->]. destruct (two_digit s S) as [-> ->]. reflexivity.
Qed.
Definition stamp_pattern (b : bool) : list (Z -> bool) := map Z.eqb ((if b then bstr "begin" else bstr "end") ++ eqquote) ++ hms_pattern.
Lemma pattern_stamp : forall k b, starts (stamp_pattern k) b = true -> exists a r, stamp_ok a /\ b = stamp_text a ++ r.
Proof.
  intros k b H. unfold stamp_pattern in H. apply starts_split in H. destruct H as (u & v & -> & L & U & V).
  apply starts_lit in U. destruct U as [r U]. rewrite map_length in L. rewrite U in L. rewrite app_length in L.
  destruct r; [|cbn in L; lia]. rewrite app_nil_r in U. apply starts_hms in V. destruct V as (h & m & s & r & A & B & C & V).
  exists (mk_stamp k h m s), r. split; [repeat split; tauto|]. rewrite stamp_text_eq, V, U. rewrite <- !app_assoc. reflexivity.
Qed.
Lemma stamp_starts : forall a r, stamp_ok a -> starts (stamp_pattern (st_begin a)) (stamp_text a ++ r) = true.
Proof.
  intros a r (H & M & S). unfold stamp_pattern. rewrite stamp_text_eq, <- app_assoc. unfold name_of. 
  rewrite starts_app by (rewrite map_length; reflexivity). rewrite hms_starts by auto.
  rewrite andb_true_r. assert (X := lit_starts ((if st_begin a then bstr "begin" else bstr "end") ++ eqquote) []).
  rewrite app_nil_r in X. exact X.
Qed.

(** A pattern that cannot continue into an attribute name does not see times. *)
Definition blocked (q : list (Z -> bool)) : Prop :=
  forall (k : bool) r, starts q ((if k then bstr "begin" else bstr "end") ++ eqquote ++ r) = false.
Fixpoint tails (q : list (Z -> bool)) : list (list (Z -> bool)) :=
  match q with [] => [] | c :: t => q :: tails t end.
Lemma starts_moved : forall q l off off2, Forall blocked (tails q) ->
  starts q (render (moved_text off) l) = starts q (render stamp_text l) /\
  starts q (render (moved_text off) l) = starts q (render (moved_text off2) l).
Proof.
  induction q as [|c q IH]; intros l off off2 F; [auto|].
  cbn [tails] in F. inversion F as [|? ? F1 F2]; subst. destruct l as [|[x|a] l].
  - auto.
  - cbn [render starts]. destruct (IH l off off2 F2) as [-> E]. split; [reflexivity|]. rewrite <- E. destruct (IH l off off2 F2) as [<- _]. reflexivity.
  - cbn [render]. unfold moved_text, stamp_text, name_of. rewrite <- !app_assoc.
    assert (G := F1 (st_begin a)). unfold eqquote in G. rewrite !G. auto.
Qed.
Ltac block_tac := repeat constructor; intros [|] r; reflexivity.
Lemma content_blocked : Forall blocked (tails content_pattern).
Proof. block_tac. Qed.
Lemma segment_blocked : Forall blocked (tails segment_pattern).
Proof. block_tac. Qed.
Lemma stamp_blocked : forall k, Forall blocked (tails (tl (stamp_pattern k))).
Proof. intros [|]; block_tac. Qed.

Lemma digit_bytes : forall s, all_digits s = true -> all_digit (bstr s).
Proof.
  induction s as [|c s IH]; intros H; [constructor|]. cbn [all_digits] in H.
  destruct (digit_val c) as [v|] eqn:E; [|discriminate]. cbn [bstr]. constructor; [|apply IH; exact H].
  unfold digit_val in E. unfold digit. destruct ((48 <=? Z.of_nat (nat_of_ascii c)) && (Z.of_nat (nat_of_ascii c) <=? 57)) eqn:B; [reflexivity|discriminate].
Qed.
Definition inner (x : Z) : Prop := x <> 32 /\ x <> 83.
Lemma digit_inner : forall d, all_digit d -> Forall inner d.
Proof. intros d H. eapply Forall_impl; [|exact H]. intros x X. unfold digit, inner in *. lia. Qed.
Lemma two_all : forall n, 0 <= n < 100 -> all_digit (two n).
Proof. intros n H. destruct (two_digit n H). repeat constructor; auto. Qed.
Lemma clock_inner : forall t, 0 <= t -> Forall inner (clock t).
Proof.
  intros t H. unfold clock. repeat (apply Forall_app; split); try (apply Forall_cons; [unfold inner; cbn; lia|apply Forall_nil]); try apply digit_inner.
  - assert (0 <= t / 3600) by (apply Z.div_pos; lia). unfold hours. destruct (Z.ltb_spec (t / 3600) 100); [apply two_all; lia|].
    apply digit_bytes. apply print_Z_digits. lia.
  - apply two_all. assert (M := Z.mod_pos_bound (t / 60) 60). lia.
  - apply two_all. assert (M := Z.mod_pos_bound t 60). lia.
Qed.
Lemma moved_inner : forall off a, 0 <= seconds a + off -> Forall inner (moved_text off a).
Proof.
  intros off a H. unfold moved_text. apply Forall_app. split; [unfold name_of; destruct (st_begin a); cbn [bstr]; repeat (apply Forall_cons; [unfold inner; cbn; lia|]); apply Forall_nil|].
  apply Forall_app. split; [cbn; repeat (apply Forall_cons; [unfold inner; cbn; lia|]); apply Forall_nil|]. apply clock_inner; auto.
Qed.
Lemma app_cut : forall (a b u v : bytes), a ++ b = u ++ v ->
  (exists u2, u = a ++ u2 /\ b = u2 ++ v) \/ (exists w, w <> [] /\ a = u ++ w /\ v = w ++ b).
Proof.
  induction a as [|x a IH]; intros b u v E.
  - left. exists u. auto.
  - destruct u as [|y u].
    + right. exists (x :: a). cbn [app] in *. split; [discriminate|auto].
    + cbn [app] in E. injection E as <- E. destruct (IH _ _ _ E) as [(u2 & -> & ->)|(w & NE & -> & ->)].
      * left. exists u2. auto.
      * right. exists w. auto.
Qed.

(** A pattern found in the shifted document is found in the original one. *)
Lemma content_back : forall l off, Forall (fun a => stamp_ok a /\ 0 <= seconds a + off) (stamps l) ->
  found content_pattern (render (moved_text off) l) -> found content_pattern (render stamp_text l).
Proof.
  induction l as [|[x|a] l IH]; intros off F (u & v & E & S).
  - exists u, v. auto.
  - cbn [render stamps] in *. destruct u as [|y u].
    + cbn [app] in E. subst v. exists [], (x :: render stamp_text l). split; [reflexivity|].
      assert (X := proj1 (starts_moved content_pattern (Plain x :: l) off off content_blocked)). cbn [render] in X. congruence.
    + injection E as -> E. destruct (IH off F) as (u' & v' & E' & S'); [exists u, v; auto|].
      exists (y :: u'), v'. cbn [app]. rewrite E'. auto.
  - cbn [render stamps] in *. inversion F as [|? ? [F0 F1] F2]; subst.
    assert (IN := moved_inner off a F1).
    apply app_cut in E. destruct E as [X|X].
    + (* the pattern starts after the stamp *)
      destruct X as (u2 & -> & E2). destruct (IH off F2) as (u' & v' & E' & S'); [exists u2, v; auto|].
      exists (stamp_text a ++ u'), v'. rewrite E', app_assoc. auto.
    + (* inside it: only its last digit can be the word *)
      destruct X as (w & NE & M & ->). rewrite M in IN. apply Forall_app in IN. destruct IN as [_ IN].
      destruct w as [|w1 [|w2 w]]; [congruence| |].
      * cbn [app] in S. unfold content_pattern in S. cbn [starts] in S. apply andb_prop in S. destruct S as [_ S].
        assert (B := content_blocked). unfold content_pattern in B. cbn [tails] in B. inversion B as [|? ? _ B2]; subst.
        rewrite (proj1 (starts_moved (lit " : " ++ hms_pattern) l off off B2)) in S.
        assert (TL : exists c d, stamp_text a = c ++ [d] /\ digit d = true).
        { rewrite stamp_text_eq. unfold hms_text, two. exists ((name_of a ++ eqquote) ++ [48 + st_h a / 10; 48 + st_h a mod 10] ++ [58] ++
            [48 + st_m a / 10; 48 + st_m a mod 10] ++ [58; 48 + st_s a / 10]). exists (48 + st_s a mod 10).
          split; [rewrite <- !app_assoc; reflexivity|]. apply two_digit. unfold stamp_ok in F0. lia. }
        destruct TL as (c' & d' & TE & TD). exists c', (d' :: render stamp_text l). split; [rewrite TE, <- app_assoc; reflexivity|].
        unfold content_pattern. cbn [starts]. rewrite S. unfold word. rewrite TD. reflexivity.
      * inversion IN as [|? ? _ IN2]; subst. inversion IN2 as [|? ? [W2 _] _]; subst.
        exfalso. unfold content_pattern in S. cbn [app starts lit bstr map] in S. apply andb_prop in S. destruct S as [_ S].
        apply andb_prop in S. destruct S as [S _]. apply Z.eqb_eq in S. apply W2. rewrite <- S. reflexivity.
Qed.
Lemma segment_back : forall l off, Forall (fun a => stamp_ok a /\ 0 <= seconds a + off) (stamps l) ->
  found segment_pattern (render (moved_text off) l) -> found segment_pattern (render stamp_text l).
Proof.
  induction l as [|[x|a] l IH]; intros off F (u & v & E & S).
  - exists u, v. auto.
  - cbn [render stamps] in *. destruct u as [|y u].
    + cbn [app] in E. subst v. exists [], (x :: render stamp_text l). split; [reflexivity|].
      assert (X := proj1 (starts_moved segment_pattern (Plain x :: l) off off segment_blocked)). cbn [render] in X. congruence.
    + injection E as -> E. destruct (IH off F) as (u' & v' & E' & S'); [exists u, v; auto|].
      exists (y :: u'), v'. cbn [app]. rewrite E'. auto.
  - cbn [render stamps] in *. inversion F as [|? ? [F0 F1] F2]; subst.
    assert (IN := moved_inner off a F1). apply app_cut in E. destruct E as [X|X].
    + destruct X as (u2 & -> & E2). destruct (IH off F2) as (u' & v' & E' & S'); [exists u2, v; auto|].
      exists (stamp_text a ++ u'), v'. rewrite E', app_assoc. auto.
    + destruct X as (w & NE & M & ->). rewrite M in IN. apply Forall_app in IN. destruct IN as [_ IN].
      destruct w as [|w1 w]; [congruence|]. inversion IN as [|? ? [_ W] _]; subst.
      exfalso. unfold segment_pattern in S. cbn [app starts lit bstr map] in S. 
      apply andb_prop in S. destruct S as [S _]. apply Z.eqb_eq in S. apply W. rewrite <- S. reflexivity.
Qed.

Lemma take_while_spec : forall p b u v, take_while p b = (u, v) -> b = u ++ v /\ Forall (fun x => p x = true) u /\
  match v with [] => True | x :: _ => p x = false end.
Proof.
  induction b as [|x b IH]; intros u v H; cbn [take_while] in H.
  - injection H as <- <-. auto.
  - destruct (p x) eqn:P.
    + destruct (take_while p b) as [a z]. injection H as <- <-. destruct (IH a z eq_refl) as (-> & A & B). auto.
    + injection H as <- <-. auto.
Qed.
Lemma take_while_ok : forall p u v, Forall (fun x => p x = true) u -> match v with [] => True | x :: _ => p x = false end ->
  take_while p (u ++ v) = (u, v).
Proof.
  induction u as [|x u IH]; intros v H V; cbn [app].
  - destruct v as [|y v]; [reflexivity|]. cbn [take_while]. rewrite V. reflexivity.
  - inversion H; subst. cbn [take_while]. rewrite H2, IH by auto. reflexivity.
Qed.
Lemma bword_word : forall x, bword x = word x.
Proof. intros. unfold bword, word, digit. rewrite ?orb_assoc. reflexivity. Qed.
Lemma word_last : forall u, u <> [] -> Forall (fun x => bword x = true) u -> exists u1 w, u = u1 ++ [w] /\ word w = true.
Proof.
  intros u NE F. destruct (exists_last NE) as (u1 & w & ->). exists u1, w. split; [reflexivity|].
  apply Forall_app in F. destruct F as [_ F]. inversion F; subst. rewrite <- bword_word. auto.
Qed.
Lemma content_found : forall off b x, match_content off b = Some x -> found content_pattern b.
Proof.
  intros off b x H. unfold match_content in H. destruct (take_while bword b) as [lang r] eqn:T.
  apply take_while_spec in T. destruct T as (-> & W & _). destruct lang as [|l0 lang]; [discriminate|].
  destruct (strip_prefix (bstr " : ") r) as [r1|] eqn:E; [|discriminate]. apply strip_inv in E.
  destruct (match_hms r1) as [[t r2]|] eqn:F; [|discriminate]. apply hms_inv in F. destruct F as (h & m & s & A & B & C & F & _).
  destruct (word_last (l0 :: lang) ltac:(discriminate) W) as (u1 & w & -> & WW).
  exists u1, (w :: r). split; [rewrite <- app_assoc; reflexivity|]. unfold content_pattern. cbn [starts]. rewrite WW. cbn [andb].
  subst r r1. rewrite starts_app by reflexivity. rewrite hms_starts by auto. reflexivity.
Qed.
Lemma segment_found : forall nr b x, match_segment nr b = Some x -> found segment_pattern b.
Proof.
  intros nr b x H. unfold match_segment in H. destruct (strip_prefix (bstr "Segment # ") b) as [r|] eqn:E; [|discriminate].
  apply strip_inv in E. destruct (take_while is_bdigit r) as [d rest] eqn:T. apply take_while_spec in T. destruct T as (-> & D & _).
  destruct d as [|d0 d]; [discriminate|]. inversion D; subst. exists [], (bstr "Segment # " ++ (d0 :: d) ++ rest).
  split; [reflexivity|]. unfold segment_pattern. rewrite starts_app by reflexivity. cbn [starts app].
  unfold is_bdigit in *. unfold digit. rewrite H2. reflexivity.
Qed.
Lemma sub_inert : forall m b, (forall u v x, b = u ++ v -> m v = Some x -> False) -> forall fuel, re_sub m fuel b = b.
Proof.
  induction b as [|y b IH]; intros H fuel; destruct fuel; cbn [re_sub]; auto.
  - destruct (m []) eqn:E; [|reflexivity]. destruct (H [] [] _ eq_refl E).
  - destruct (m (y :: b)) eqn:E; [destruct (H [] (y :: b) _ eq_refl E)|]. f_equal. apply IH.
    intros u v x Q. apply (H (y :: u)). rewrite Q. reflexivity.
Qed.
Lemma found_app : forall p u v, found p v -> found p (u ++ v).
Proof. intros p u v (a & b & -> & S). exists (u ++ a), b. rewrite app_assoc. auto. Qed.
Lemma content_inert : forall off b, ~ found content_pattern b -> sub_all (match_content off) b = b.
Proof.
  intros off b H. unfold sub_all. apply sub_inert. intros u v x E M. apply H. rewrite E. apply found_app. eapply content_found; eauto.
Qed.
Lemma segment_inert : forall nr b, ~ found segment_pattern b -> sub_all (match_segment nr) b = b.
Proof.
  intros off b H. unfold sub_all. apply sub_inert. intros u v x E M. apply H. rewrite E. apply found_app. eapply segment_found; eauto.
Qed.
Lemma document_stamps : forall l, document l -> Forall stamp_ok (stamps l).
Proof.
  induction l as [|[x|a] l IH]; intros H; cbn [stamps]; [constructor| |]; destruct H as [H1 H2]; [apply IH; exact H2|].
  constructor; [exact H1|apply IH; exact H2].
Qed.

(** The times move by exactly the offset and every other byte stays, in a
    document without the two visible texts that are rewritten as well. *)
Lemma C33_shift_pf : forall l off nr, document l -> Forall (fun a => 0 <= seconds a + off) (stamps l) ->
  ~ found content_pattern (render stamp_text l) -> ~ found segment_pattern (render stamp_text l) ->
  adjust_ttml_content (render stamp_text l) off nr = render (moved_text off) l.
Proof.
  intros l off nr D P C S. unfold adjust_ttml_content. rewrite times_shift by auto.
  assert (F : Forall (fun a => stamp_ok a /\ 0 <= seconds a + off) (stamps l)).
  { assert (F := document_stamps l D). rewrite Forall_forall in *. auto. }
  rewrite content_inert by (intros X; apply C; eapply content_back; eauto).
  apply segment_inert. intros X. apply S. eapply segment_back; eauto.
Qed.
Example C33_shift_case : exists l, document l /\
  render stamp_text l = bstr "<p begin=" ++ [34] ++ bstr "00:59:58.5" ++ [34] ++ bstr ">" /\
  adjust_ttml_content (render stamp_text l) 3602 7 = bstr "<p begin=" ++ [34] ++ bstr "02:00:00.5" ++ [34] ++ bstr ">".
Proof.
  destruct (C33_documents_pf (bstr "<p begin=" ++ [34] ++ bstr "00:59:58.5" ++ [34] ++ bstr ">")) as (l & D & R).
  exists l. split; [auto|]. rewrite R. split; [reflexivity|vm_compute; reflexivity].
Qed.

Lemma clock_hms : forall t, 0 <= t < 360000 -> clock t = hms_text (t / 3600) (t / 60 mod 60) (t mod 60).
Proof.
  intros t H. unfold clock, hms_text, hours. assert (t / 3600 < 100) by (apply Z.div_lt_upper_bound; lia).
  destruct (Z.ltb_spec (t / 3600) 100); [reflexivity|lia].
Qed.
Definition shifted (off : Z) (a : stamp) : stamp :=
  let t := seconds a + off in mk_stamp (st_begin a) (t / 3600) (t / 60 mod 60) (t mod 60).
Lemma shifted_text : forall off a, 0 <= seconds a + off < 360000 ->
  stamp_text (shifted off a) = moved_text off a /\ stamp_ok (shifted off a) /\ seconds (shifted off a) = seconds a + off.
Proof.
  intros off a H. assert (D1 := Z.div_mod (seconds a + off) 3600 ltac:(lia)).
  split; [|split].
  - rewrite stamp_text_eq. unfold moved_text, shifted, name_of. cbn [st_begin st_h st_m st_s]. rewrite clock_hms by auto.
    rewrite <- app_assoc. reflexivity.
  - unfold stamp_ok, shifted. cbn [st_h st_m st_s]. Z.to_euclidean_division_equations. lia.
  - unfold seconds at 1. unfold shifted. cbn [st_h st_m st_s]. Z.to_euclidean_division_equations. lia.
Qed.
Definition shift_piece (off : Z) (p : piece stamp) : piece stamp :=
  match p with Plain x => Plain x | Hit a => Hit (shifted off a) end.
Lemma render_shift : forall off l, Forall (fun a => 0 <= seconds a + off < 360000) (stamps l) ->
  render stamp_text (map (shift_piece off) l) = render (moved_text off) l.
Proof.
  induction l as [|[x|a] l IH]; intros F; cbn [map shift_piece render stamps] in *; [reflexivity| |].
  - rewrite IH by auto. reflexivity.
  - inversion F; subst. rewrite IH by auto. rewrite (proj1 (shifted_text off a H1)). reflexivity.
Qed.
Lemma stamps_shift : forall off l, stamps (map (shift_piece off) l) = map (shifted off) (stamps l).
Proof. induction l as [|[x|a] l IH]; cbn [map shift_piece stamps]; [reflexivity|auto|congruence]. Qed.
Lemma plain_no_stamp : forall x b, (forall a t, x :: b = stamp_text a ++ t -> ~ stamp_ok a) <-> forall k, starts (stamp_pattern k) (x :: b) = false.
Proof.
  intros x b. split.
  - intros H k. destruct (starts (stamp_pattern k) (x :: b)) eqn:E; [|reflexivity]. apply pattern_stamp in E.
    destruct E as (a & r & OK & E). destruct (H _ _ E OK).
  - intros H a t E OK. assert (S := stamp_starts a t OK). rewrite <- E, H in S. discriminate.
Qed.
Lemma document_shift : forall off l, Forall (fun a => 0 <= seconds a + off < 360000) (stamps l) -> document l ->
  document (map (shift_piece off) l).
Proof.
  intros off. induction l as [|[x|a] l IH]; intros F D; cbn [map shift_piece stamps] in *; [exact I| |].
  - destruct D as [D1 D2]. split; [|apply IH; auto]. rewrite render_shift by auto.
    apply plain_no_stamp. intros k. assert (D3 := proj1 (plain_no_stamp _ _) D1 k). clear D1. rename D3 into D1.
    assert (B := stamp_blocked k). destruct (stamp_pattern k) as [|c q]; [discriminate|]. cbn [tl] in B.
    cbn [starts] in *. rewrite (proj1 (starts_moved q l off off B)). exact D1.
  - destruct D as [D1 D2]. inversion F; subst. split; [|apply IH; auto]. apply shifted_text. auto.
Qed.
Lemma render_ext : forall A (f g : A -> bytes) l, (forall a, In a (stamps l) -> f a = g a) -> render f l = render g l.
Proof.
  induction l as [|[x|a] l IH]; intros H; cbn [render stamps] in *; [reflexivity|rewrite IH; auto|].
  rewrite IH, H; auto; [left; reflexivity|]. intros; apply H; right; auto.
Qed.

(** A zero offset changes nothing when minutes and seconds are below 60. *)
Lemma C33_zero_pf : forall l nr, document l -> Forall canonical (stamps l) ->
  ~ found content_pattern (render stamp_text l) -> ~ found segment_pattern (render stamp_text l) ->
  adjust_ttml_content (render stamp_text l) 0 nr = render stamp_text l.
Proof.
  intros l nr D K C S. assert (OK := document_stamps l D).
  assert (B : forall a, In a (stamps l) -> 0 <= seconds a + 0 < 360000 /\ stamp_ok a /\ canonical a).
  { intros a I. rewrite Forall_forall in *. specialize (OK a I). specialize (K a I). split; [|auto].
    unfold stamp_ok, canonical, seconds in *. lia. }
  rewrite C33_shift_pf; auto.
  - apply render_ext. intros a I. destruct (B a I) as (B1 & B2 & B3). rewrite <- (proj1 (shifted_text 0 a B1)).
    unfold shifted. rewrite Z.add_0_r. rewrite !stamp_text_eq. unfold name_of. cbn [st_begin st_h st_m st_s].
    unfold stamp_ok, canonical, seconds in *. f_equal.
    assert (E1 : (3600 * st_h a + 60 * st_m a + st_s a) / 3600 = st_h a) by (symmetry; apply Z.div_unique with (60 * st_m a + st_s a); lia).
    assert (E2 : (3600 * st_h a + 60 * st_m a + st_s a) / 60 = 60 * st_h a + st_m a) by (symmetry; apply Z.div_unique with (st_s a); lia).
    assert (E3 : (60 * st_h a + st_m a) mod 60 = st_m a) by (symmetry; apply Z.mod_unique with (st_h a); lia).
    assert (E4 : (3600 * st_h a + 60 * st_m a + st_s a) mod 60 = st_s a) by (symmetry; apply Z.mod_unique with (60 * st_h a + st_m a); lia).
    rewrite E1, E2, E3, E4. reflexivity.
  - rewrite Forall_forall. intros a I. apply B in I. lia.
Qed.
Example C33_zero_case : adjust_ttml_content (bstr "<p end=" ++ [34] ++ bstr "99:59:59") 0 1 = bstr "<p end=" ++ [34] ++ bstr "99:59:59".
Proof. vm_compute. reflexivity. Qed.

(** Two shifts are one shift by the sum, while the hours stay two digits. *)
Lemma C33_twice_pf : forall l o1 o2 n1 n2, document l ->
  Forall (fun a => 0 <= seconds a + o1 < 360000 /\ 0 <= seconds a + o1 + o2) (stamps l) ->
  ~ found content_pattern (render stamp_text l) -> ~ found segment_pattern (render stamp_text l) ->
  adjust_ttml_content (adjust_ttml_content (render stamp_text l) o1 n1) o2 n2 =
  adjust_ttml_content (render stamp_text l) (o1 + o2) n2.
Proof.
  intros l o1 o2 n1 n2 D P C S.
  assert (P1 : Forall (fun a => 0 <= seconds a + o1 < 360000) (stamps l)) by (eapply Forall_impl; [|exact P]; cbn; tauto).
  assert (F : Forall (fun a => stamp_ok a /\ 0 <= seconds a + o1) (stamps l)).
  { assert (F := document_stamps l D). rewrite Forall_forall in *. intros a I. split; [auto|]. apply P1 in I. lia. }
  rewrite (C33_shift_pf l o1); auto; [|eapply Forall_impl; [|exact F]; cbn; tauto].
  rewrite (C33_shift_pf l (o1 + o2)); auto; [|eapply Forall_impl; [|exact P]; cbn; lia].
  rewrite <- render_shift by auto. rewrite C33_shift_pf.
  - clear - P1 P. induction l as [|[x|a] l IH]; cbn [map shift_piece render stamps] in *; [reflexivity| |].
    + rewrite IH by auto. reflexivity.
    + inversion P; inversion P1; subst. rewrite IH by auto. f_equal.
      destruct (shifted_text o1 a H5) as (_ & _ & E). unfold moved_text. rewrite E. rewrite Z.add_assoc. reflexivity.
  - apply document_shift; auto.
  - rewrite stamps_shift, Forall_forall. intros b I. apply in_map_iff in I. destruct I as (a & <- & I).
    rewrite Forall_forall in P, P1. rewrite (proj2 (proj2 (shifted_text o1 a (P1 a I)))). apply P in I. lia.
  - rewrite render_shift by auto. intros X. apply C. eapply content_back; eauto.
  - rewrite render_shift by auto. intros X. apply S. eapply segment_back; eauto.
Qed.
Example C33_twice_case : 
  adjust_ttml_content (adjust_ttml_content (bstr "<p end=" ++ [34] ++ bstr "00:00:07") 3599 1) 100000 1 =
  adjust_ttml_content (bstr "<p end=" ++ [34] ++ bstr "00:00:07") 103599 1.
Proof. vm_compute. reflexivity. Qed.
(** From 100 hours on the times are no longer recognised. *)
Lemma C33_hundred_hours_refuted_pf : exists b o1 o2 n, 0 <= o1 /\ 0 <= o2 /\
  adjust_ttml_content (adjust_ttml_content b o1 n) o2 n <> adjust_ttml_content b (o1 + o2) n.
Proof.
  exists (bstr "<p end=" ++ [34] ++ bstr "00:00:07"), 360000, 1, 1. split; [lia|]. split; [lia|].
  vm_compute. discriminate.
Qed.
(** A zero offset is not always neutral: [00:75:00] becomes [01:15:00]. *)
Lemma C33_zero_refuted_pf : exists b n, adjust_ttml_content b 0 n <> b.
Proof. exists (bstr "<p end=" ++ [34] ++ bstr "00:75:00"), 1. vm_compute. discriminate. Qed.

(** The visible texts.  Second pass: each [language : hh:mm:ss.fraction] becomes
    the UTC time; third pass: each segment number is replaced. *)
Lemma line_nonempty : forall a, line_text a <> [].
Proof. intros a. unfold line_text. destruct (ln_lang a); discriminate. Qed.
Lemma head_starts : forall c b, (match b with [] => True | x :: _ => c x = false end) <-> starts [c] b = false.
Proof. intros c [|x b]; cbn; [intuition|]. rewrite andb_true_r. tauto. Qed.
Lemma dig : forall x, is_bdigit x = digit x.
Proof. reflexivity. Qed.
Lemma content_ok : forall off a r, line_ok a r ->
  match_content off (line_text a ++ r) = Some (line_out off (fun t => bstr (make_timestamp t)) a, r).
Proof.
  intros off a r (NE & W & H & M & S & D & R). unfold match_content, line_text.
  set (fr := match ln_frac a with [] => [] | d => 46 :: d end) in *.
  assert (E : (ln_lang a ++ bstr " : " ++ two (ln_h a) ++ [58] ++ two (ln_m a) ++ [58] ++ two (ln_s a) ++ fr) ++ r =
    ln_lang a ++ bstr " : " ++ hms_text (ln_h a) (ln_m a) (ln_s a) ++ fr ++ r).
  { unfold hms_text. rewrite <- !app_assoc. reflexivity. }
  rewrite E. rewrite take_while_ok; [|eapply Forall_impl; [|exact W]; intros x X; rewrite bword_word; auto|reflexivity].
  destruct (ln_lang a) as [|l0 lang] eqn:EL; [congruence|]. rewrite <- EL. rewrite strip_ok, hms_ok by auto.
  assert (T : ln_s a + 60 * ln_m a + 3600 * ln_h a + off = 3600 * ln_h a + 60 * ln_m a + ln_s a + off) by lia.
  rewrite T. unfold line_out. f_equal. rewrite EL. f_equal. unfold fr. destruct (ln_frac a) as [|d0 d].
  - cbn [app]. destruct r as [|x r]; [reflexivity|]. destruct (Z.eq_dec x 46) as [->|N].
    + cbn [starts] in R. assert (V : match r with [] => True | y :: _ => is_bdigit y = false end).
      { destruct r as [|y r]; [exact I|]. cbn [starts] in R. rewrite dig. change (46 =? 46) with true in R. cbn [andb] in R. rewrite andb_true_r in R. exact R. }
      assert (TW := take_while_ok is_bdigit [] r (Forall_nil _) V). cbn [app] in TW. rewrite TW. reflexivity.
    + destruct x as [|p|p]; try reflexivity. repeat (destruct p as [p|p|]; try reflexivity). congruence.
  - cbn [app]. change (d0 :: d ++ r) with ((d0 :: d) ++ r). rewrite take_while_ok; [reflexivity|exact D|].
    apply (head_starts digit). exact R.
Qed.
Lemma content_inv : forall off b o r, match_content off b = Some (o, r) -> exists a, line_ok a r /\ b = line_text a ++ r.
Proof.
  intros off b o r H. unfold match_content in H. destruct (take_while bword b) as [lang r0] eqn:T.
  apply take_while_spec in T. destruct T as (-> & W & _). destruct lang as [|l0 lang]; [discriminate|].
  destruct (strip_prefix (bstr " : ") r0) as [r1|] eqn:E; [|discriminate]. apply strip_inv in E.
  destruct (match_hms r1) as [[t r2]|] eqn:F; [|discriminate]. apply hms_inv in F. destruct F as (h & m & s & A & B & C & F & _).
  assert (W' : Forall (fun x => word x = true) (l0 :: lang)) by (eapply Forall_impl; [|exact W]; intros x X; rewrite <- bword_word; auto).
  assert (MK : forall fr, all_digit fr -> r2 = match fr with [] => [] | d => 46 :: d end ++ r ->
     match fr with [] => starts [Z.eqb 46; digit] r = false | _ => starts [digit] r = false end ->
     exists a, line_ok a r /\ (l0 :: lang) ++ r0 = line_text a ++ r).
  { intros fr FD FE FR. exists (mk_line (l0 :: lang) h m s fr). split.
    - unfold line_ok. cbn [ln_lang ln_h ln_m ln_s ln_frac]. split; [discriminate|]. tauto.
    - unfold line_text. cbn [ln_lang ln_h ln_m ln_s ln_frac]. rewrite E, F. rewrite FE. unfold hms_text. rewrite <- !app_assoc. destruct fr; reflexivity. }
  injection H as _ H. destruct r2 as [|x r3]; [apply (MK []); [constructor|rewrite <- H; reflexivity|rewrite <- H; reflexivity]|].
  destruct (Z.eq_dec x 46) as [->|N].
  - destruct (take_while is_bdigit r3) as [d r4] eqn:T. apply take_while_spec in T. destruct T as (-> & D & V).
    destruct d as [|d0 d].
    + apply (MK []); [constructor|rewrite <- H; reflexivity|]. rewrite <- H. cbn [app starts]. destruct r4 as [|y r4]; [reflexivity|].
      rewrite dig in V. cbn [starts]. rewrite V. reflexivity.
    + subst r4. apply (MK (d0 :: d)); [exact D|reflexivity|]. apply (proj1 (head_starts digit _)). exact V.
  - assert (X : x :: r3 = r). { destruct x as [|p|p]; try exact H. repeat (destruct p as [p|p|]; try exact H). congruence. }
    apply (MK []); [constructor|exact X|]. rewrite <- X. cbn [starts]. destruct (Z.eqb_spec 46 x); [congruence|reflexivity].
Qed.
Lemma lines_pass : forall l off, complete line_ok line_text l ->
  sub_all (match_content off) (render line_text l) = render (line_out off (fun t => bstr (make_timestamp t))) l.
Proof.
  intros l off C. unfold sub_all. apply re_sub_pieces with (ok := line_ok); auto.
  - apply line_nonempty.
  - apply content_inv.
  - intros a r _ OK. apply content_ok. auto.
Qed.
Lemma segment_pass : forall l nr, complete seg_ok seg_text l ->
  sub_all (match_segment nr) (render seg_text l) = render (fun _ => bstr "Segment # " ++ bstr (print_Z nr)) l.
Proof.
  intros l nr C. unfold sub_all. apply re_sub_pieces with (ok := seg_ok); auto.
  - intros a. discriminate.
  - intros b o r H. unfold match_segment in H. destruct (strip_prefix (bstr "Segment # ") b) as [r0|] eqn:E; [|discriminate].
    apply strip_inv in E. destruct (take_while is_bdigit r0) as [d rest] eqn:T. apply take_while_spec in T. destruct T as (-> & D & V).
    destruct d as [|d0 d]; [discriminate|]. injection H as _ <-. exists (d0 :: d). split; [split; [discriminate|split; [exact D|]]|].
    + apply (proj1 (head_starts digit _)). exact V.
    + unfold seg_text. rewrite <- app_assoc. exact E.
  - intros a r _ (NE & D & R). unfold match_segment, seg_text. rewrite <- app_assoc, strip_ok. rewrite take_while_ok; [|exact D|apply (head_starts digit); exact R].
    destruct a; [congruence|reflexivity].
Qed.
(** Every byte string can be cut into lines and plain bytes, and into segment
    numbers and plain bytes. *)
Lemma cut_exists : forall A (ok : A -> bytes -> Prop) (f : A -> bytes) (m : bytes -> option (bytes * bytes)),
  (forall a, f a <> []) ->
  (forall b o r, m b = Some (o, r) -> exists a, ok a r /\ b = f a ++ r) ->
  (forall a r, ok a r -> m (f a ++ r) <> None) ->
  forall b : bytes, exists l, complete ok f l /\ render f l = b.
Proof.
  intros A ok f m NE INV OK b. remember (List.length b) as n eqn:N. revert b N. induction n as [n IH] using lt_wf_ind. intros b N.
  destruct b as [|x b]; [exists []; split; [exact I|reflexivity]|].
  destruct (m (x :: b)) as [(o & r)|] eqn:E.
  - apply INV in E. destruct E as (a & K & E).
    destruct (IH (List.length r)) with (b := r) as (l & L & R).
    + rewrite N, E, app_length. pose proof (NE a). destruct (f a); [congruence|cbn [List.length]; lia].
    + reflexivity.
    + exists (Hit a :: l). split; [split; [rewrite R; exact K|exact L]|]. cbn [render]. rewrite R. auto.
  - destruct (IH (List.length b)) with (b := b) as (l & L & R); [cbn [List.length] in N; lia|reflexivity|].
    exists (Plain x :: l). split; [split; [|exact L]|cbn [render]; congruence].
    intros a t H K. rewrite R in H. rewrite H in E. exact (OK a t K E).
Qed.
Lemma segment_inv : forall nr b o r, match_segment nr b = Some (o, r) -> exists a, seg_ok a r /\ b = seg_text a ++ r.
Proof.
  intros nr b o r H. unfold match_segment in H. destruct (strip_prefix (bstr "Segment # ") b) as [r0|] eqn:E; [|discriminate].
  apply strip_inv in E. destruct (take_while is_bdigit r0) as [d rest] eqn:T. apply take_while_spec in T. destruct T as (-> & D & V).
  destruct d as [|d0 d]; [discriminate|]. injection H as _ <-. exists (d0 :: d). split; [split; [discriminate|split; [exact D|]]|].
  - apply (proj1 (head_starts digit _)). exact V.
  - unfold seg_text. rewrite <- app_assoc. exact E.
Qed.
Lemma C33_cuts_pf : forall b, (exists l, complete line_ok line_text l /\ render line_text l = b) /\
  (exists l, complete seg_ok seg_text l /\ render seg_text l = b).
Proof.
  intros b. split.
  - apply cut_exists with (m := match_content 0); [apply line_nonempty|apply content_inv|].
    intros a r K. rewrite content_ok by exact K. discriminate.
  - apply cut_exists with (m := match_segment 0); [intros a; discriminate|apply segment_inv|].
    intros a r (NE & D & R). unfold match_segment, seg_text. rewrite <- app_assoc, strip_ok. rewrite take_while_ok; [|exact D|apply (head_starts digit); exact R].
    destruct a; [congruence|discriminate].
Qed.
(** Any document at all: cut it at the stamps and move them; cut the outcome at
    the lines [language : hh:mm:ss.fraction] and put the UTC time of the moved
    time; cut that at the segment numbers and put the number of the segment. *)
Lemma C33_passes_pf : forall l1 l2 l3 off nr,
  document l1 -> Forall (fun a => 0 <= seconds a + off) (stamps l1) ->
  complete line_ok line_text l2 -> render line_text l2 = render (moved_text off) l1 ->
  complete seg_ok seg_text l3 -> render seg_text l3 = render (line_out off (fun t => bstr (make_timestamp t))) l2 ->
  adjust_ttml_content (render stamp_text l1) off nr = render (fun _ => seg_text (bstr (print_Z nr))) l3.
Proof.
  intros l1 l2 l3 off nr D P C2 E2 C3 E3. unfold adjust_ttml_content. rewrite times_shift by auto.
  rewrite <- E2, lines_pass by exact C2. rewrite <- E3, segment_pass by exact C3. reflexivity.
Qed.
Fixpoint nohit (m : bytes -> option (bytes * bytes)) (b : bytes) : bool :=
  match b with [] => true | _ :: r => match m b with None => nohit m r | Some _ => false end end.
Lemma render_plain : forall A (f : A -> bytes) b, render f (map Plain b) = b.
Proof. intros A f b. induction b as [|x b IH]; [reflexivity|]. cbn [map render]. rewrite IH. reflexivity. Qed.
Lemma plain_complete : forall A (ok : A -> bytes -> Prop) (f : A -> bytes) m,
  (forall a r, ok a r -> m (f a ++ r) <> None) -> forall b, nohit m b = true -> complete ok f (map Plain b).
Proof.
  intros A ok f m OK b. induction b as [|x b IH]; intros H; [exact I|]. cbn [nohit] in H. cbn [map complete].
  destruct (m (x :: b)) eqn:E; [discriminate|]. split; [|auto]. rewrite render_plain. intros a t Q K. rewrite Q in E. exact (OK a t K E).
Qed.
Example C33_passes_case : document (map Plain (bstr "Segment # 7")) /\ complete line_ok line_text (map Plain (bstr "Segment # 7")) /\
  complete seg_ok seg_text [Hit (bstr "7")] /\ adjust_ttml_content (bstr "Segment # 7") 3600 12 = bstr "Segment # 12".
Proof.
  split; [|split; [|split; [|vm_compute; reflexivity]]].
  - apply plain_complete with (m := match_time 0); [|vm_compute; reflexivity].
    intros a r OK. rewrite time_ok; [discriminate|exact OK|]. unfold stamp_ok, seconds in *. lia.
  - apply plain_complete with (m := match_content 0); [|vm_compute; reflexivity].
    intros a r OK. rewrite content_ok by exact OK. discriminate.
  - split; [|exact I]. split; [discriminate|]. split; [repeat constructor|reflexivity].
Qed.
Example C33_lines_case : adjust_ttml_content (bstr "eng : 00:00:03.120, Segment # 00017") 86400 42 =
  bstr "eng : UTC = 1970-01-02T00:00:03Z, Segment # 42" /\
  line_ok (mk_line (bstr "eng") 0 0 3 (bstr "120")) (bstr ", ") /\ seg_ok (bstr "00017") [].
Proof.
  split; [vm_compute; reflexivity|]. split; [|split; [discriminate|split; [repeat constructor|reflexivity]]].
  unfold line_ok. cbn [ln_lang ln_h ln_m ln_s ln_frac]. split; [discriminate|]. split; [repeat constructor|].
  split; [lia|]. split; [lia|]. split; [lia|]. split; [repeat constructor|reflexivity].
Qed.
