(** The whole response with links, and the reply to a link. *)
From Coq Require Import ZifyBool ZifyNat Znumtheory.
From Verif Require Import Base BaseProofs ConfigModel StrModel MpdModel XlinkModel XlinkSpec XlinkProofs XlinkProofs2 XlinkProofs3.
Local Open Scope string_scope.
Open Scope Z_scope.

Fixpoint outs_of (ad k : Z) (base filename : string) (seen : bool) (l : list ptext) : list string :=
  match l with
  | [] => []
  | p :: r =>
      let ch := pt_nr p mod k =? 0 in
      (if ch && (negb (0 <? ad) || seen) then pt_link ad base filename p
       else if 0 <? ad then pt_asset p else pt_text p) :: outs_of ad k base filename (seen || ch) r
  end.
Definition inv (D : string) (l : list ptext) : Prop :=
  forall l1 p l2, l = (l1 ++ p :: l2)%list -> lacks (D ++ periods_text l1) (pt_id p).
Lemma inv_next : forall D p l o, inv D (p :: l) -> (exists r, o = String "<" r) -> (exists r, o = r ++ ">") ->
  (forall q, lacks (pt_text p) (pt_id q) -> In q l -> lacks o (pt_id q)) -> inv (D ++ o ++ pt_gap p) l.
Proof.
  intros D p l o I (r & Er) (r' & Er') O l1 q l2 E. subst l. specialize (I (p :: l1) q l2 eq_refl).
  cbn [periods_text] in I. pose proof (lacks_app_l _ _ _ I) as ID. apply lacks_app_r in I.
  pose proof (lacks_app_l _ _ _ I) as IP. apply lacks_app_r in I.
  assert (O' : lacks o (pt_id q)) by (apply O; [exact IP|apply in_or_app; right; left; reflexivity]).
  rewrite !sapp_assoc.
  assert (A : lacks (o ++ pt_gap p ++ periods_text l1) (pt_id q)).
  { rewrite Er', sapp_assoc. change (">" ++ pt_gap p ++ periods_text l1) with (String ">" (pt_gap p ++ periods_text l1)).
    sep ">"%char; [|exact I]. rewrite Er' in O'. apply lacks_app_l in O'. exact O'. }
  rewrite Er in A |- *. cbn [append] in A |- *.
  change (pt_id q) with (String "p" (print_Z (pt_nr q))) in *.
  apply lacks_app_head; [apply idc_has; [apply print_idc|reflexivity]|exact ID|exact A].
Qed.
Lemma inv_distinct : forall D p l, inv D (p :: l) -> Forall (fun q => pt_nr p <> pt_nr q) l.
Proof.
  intros D p l I. apply Forall_forall. intros q Q E. apply in_split in Q. destruct Q as (l1 & l2 & ->).
  specialize (I (p :: l1) q l2 eq_refl). apply lacks_app_r in I. cbn [periods_text] in I. apply lacks_app_l in I. apply I.
  exists "<Period id=""", ("""" ++ pt_attrs p ++ ">" ++ pt_body p ++ "</Period>"). unfold pt_text, pt_tag, pt_id. rewrite E. sassoc. reflexivity.
Qed.
Lemma text_ends : forall p, exists r, pt_text p = r ++ ">".
Proof. intros p. exists (pt_tag (pt_attrs p) p ++ pt_body p ++ "</Period"). unfold pt_text. sassoc. reflexivity. Qed.
Lemma asset_ends : forall p, exists r, pt_asset p = r ++ ">".
Proof.
  intros p. unfold pt_asset. match goal with |- exists r, ?a ++ ?b ++ ?c ++ "</Period>" = _ => exists (a ++ b ++ c ++ "</Period") end.
  sassoc. reflexivity.
Qed.
Lemma link_ends : forall ad b f p, exists r, pt_link ad b f p = r ++ ">".
Proof.
  intros ad b f p. unfold pt_link. match goal with |- exists r, ?a ++ ?b ++ ?c ++ ?d ++ "</Period>" = _ => exists (a ++ b ++ c ++ d ++ "</Period") end.
  rewrite !sapp_assoc. reflexivity.
Qed.

Lemma loop_ok : forall b base filename lk ad k, 1 <= ad <= 5 \/ b = Some base -> forall l D cnt, 0 <= cnt ->
  Forall pt_fine l -> inv D l -> Forall (fun p => lacks (base ++ filename) (pt_id p)) l ->
  Forall (fun p => existsb (String.eqb (pt_id p)) lk = (pt_nr p mod k =? 0)) l ->
  xlink_loop b filename lk ad (map pt_id l) cnt (D ++ periods_text l) = Ok (D ++ weave (outs_of ad k base filename (0 <? cnt) l) l).
Proof.
  intros b base filename lk ad k B l. induction l as [|p l IH]; intros D cnt C F I L S; [reflexivity|].
  inversion F as [|? ? Fp Fl]; subst. inversion L as [|? ? Lp Ll]; subst. inversion S as [|? ? Sp Sl]; subst.
  assert (LD : lacks D (pt_id p)) by (pose proof (I [] p l eq_refl) as J; rewrite sapp_nil in J; exact J).
  cbn [map periods_text xlink_loop outs_of weave].
  destruct (positions D p (pt_gap p ++ periods_text l) Fp LD) as (P1 & P2 & P3 & P4). cbv zeta in P1, P2, P3, P4.
  rewrite P1, P2, P3, Sp, P4, (xlink_period_ok b ad base filename p B).
  assert (NEXT : forall o cnt', 0 <= cnt' -> (exists r, o = String "<" r) -> (exists r, o = r ++ ">") ->
    (forall q, lacks (pt_text p) (pt_id q) -> In q l -> lacks o (pt_id q)) ->
    xlink_loop b filename lk ad (map pt_id l) cnt' (D ++ o ++ pt_gap p ++ periods_text l)
    = Ok (D ++ o ++ pt_gap p ++ weave (outs_of ad k base filename (0 <? cnt') l) l)).
  { intros o cnt' C' O1 O2 O3.
    assert (E : D ++ o ++ pt_gap p ++ periods_text l = (D ++ o ++ pt_gap p) ++ periods_text l) by (rewrite !sapp_assoc; reflexivity).
    rewrite E, (IH (D ++ o ++ pt_gap p) cnt' C' Fl (inv_next D p l o I O1 O2 O3) Ll Sl), !sapp_assoc. reflexivity. }
  destruct (pt_nr p mod k =? 0); cbn [andb bind].
  - assert (SN : 0 <? cnt + 1 = true) by lia. rewrite orb_true_r.
    assert (CE : (cnt + 1 =? 1) = negb (0 <? cnt)) by lia. rewrite CE.
    assert (LINK : pt_link ad base filename p = (if ad =? 5 then with_default (pt_text p) (bare_link ad base filename p) else bare_link ad base filename p)).
    { destruct (Z.eqb_spec ad 5) as [->|N]; [symmetry; apply default_is_link; exact Fp|symmetry; apply bare_is_link; exact N]. }
    assert (R : forall new, py_replace (pt_text p) new (D ++ pt_text p ++ pt_gap p ++ periods_text l) = D ++ new ++ pt_gap p ++ periods_text l).
    { intros new. apply replace_period; [exact LD|]. apply other_marks; [exact Fl|apply (inv_distinct D); exact I|]. apply Fp. }
    destruct (0 <? ad) eqn:A; cbn [negb orb andb].
    + destruct (0 <? cnt) eqn:K; cbn [negb].
      * rewrite <- LINK, R, NEXT; [rewrite SN; reflexivity|lia|eexists; reflexivity|apply link_ends|].
        intros q Q IN. apply link_lacks; [exact Q|]. rewrite Forall_forall in Ll. apply Ll. exact IN.
      * rewrite NEXT; [rewrite SN; reflexivity|lia|eexists; reflexivity|apply asset_ends|]. intros q Q _. apply asset_lacks. exact Q.
    + rewrite <- LINK, R, NEXT; [rewrite SN; reflexivity|lia|eexists; reflexivity|apply link_ends|].
      intros q Q IN. apply link_lacks; [exact Q|]. rewrite Forall_forall in Ll. apply Ll. exact IN.
  - rewrite orb_false_r. destruct (0 <? ad).
    + rewrite NEXT; [reflexivity|lia|eexists; reflexivity|apply asset_ends|]. intros q Q _. apply asset_lacks. exact Q.
    + rewrite NEXT; [reflexivity|lia|apply text_start|apply text_ends|]. intros q Q _. exact Q.
Qed.

(** ** Which ids are selected *)
Lemma linked_ids_ok : forall k l, k <> 0 -> exists lk, linked_ids k (map pt_id l) = Ok lk
  /\ forall p, In (pt_id p) lk <-> (exists q, In q l /\ pt_nr q = pt_nr p) /\ pt_nr p mod k = 0.
Proof.
  intros k l K. induction l as [|p l (lk & E & M)].
  - exists []. split; [reflexivity|]. intros p. split; [intros []|intros ((q & [] & _) & _)].
  - cbn [map linked_ids]. unfold pt_id at 1. cbn [append drop]. rewrite py_int_print. cbn [bind]. unfold py_mod.
    destruct (Z.eqb_spec k 0); [contradiction|]. cbn [bind]. rewrite E. cbn [bind]. eexists. split; [reflexivity|].
    intros q. destruct (Z.eqb_spec (pt_nr p mod k) 0) as [Z|Z].
    + cbn [In]. rewrite M. split.
      * intros [E'|((x & X1 & X2) & X3)].
        -- apply id_inj in E'. split; [exists p; split; [left; reflexivity|exact E']|]. congruence.
        -- split; [exists x; split; [right; exact X1|exact X2]|exact X3].
      * intros ((x & [<-|X1] & X2) & X3); [left; unfold pt_id; congruence|right]. split; [exists x; split; assumption|exact X3].
    + rewrite M. split; intros ((x & X1 & X2) & X3).
      * split; [exists x; split; [right; exact X1|exact X2]|exact X3].
      * destruct X1 as [<-|X1]; [congruence|]. split; [exists x; split; assumption|exact X3].
Qed.
Lemma linked_exists : forall k l lk, k <> 0 -> linked_ids k (map pt_id l) = Ok lk ->
  Forall (fun p => existsb (String.eqb (pt_id p)) lk = (pt_nr p mod k =? 0)) l.
Proof.
  intros k l lk K E. destruct (linked_ids_ok k l K) as (lk' & E' & M). rewrite E in E'. injection E' as <-.
  apply Forall_forall. intros p P. destruct (existsb _ _) eqn:X.
  - apply existsb_exists in X. destruct X as (i & I & J). apply String.eqb_eq in J. subst i. apply M in I. lia.
  - destruct (Z.eqb_spec (pt_nr p mod k) 0) as [Z|Z]; [|reflexivity].
    assert (I : In (pt_id p) lk) by (apply M; split; [exists p; auto|exact Z]).
    rewrite <- X. apply existsb_exists. exists (pt_id p). split; [exact I|apply String.eqb_refl].
Qed.

(** ** The base URL *)
Lemma upto_app : forall a b, has """" a = false -> upto_quote (a ++ b) = a ++ upto_quote b.
Proof.
  intros a b. induction a as [|x a IH]; intros H; [reflexivity|]. cbn [has] in H. apply orb_false_iff in H. destruct H as (N & H).
  cbn [append upto_quote]. rewrite Ascii.eqb_sym, N. f_equal. apply IH. exact H.
Qed.
Lemma upto_prefix : forall s, exists r, s = upto_quote s ++ r.
Proof.
  intros s. induction s as [|x s (r & IH)]; [exists ""; reflexivity|]. cbn [upto_quote]. destruct (Ascii.eqb x """").
  - exists (String x s). reflexivity.
  - exists r. cbn [append]. congruence.
Qed.
Lemma upto_stop : forall a b, exists r, a ++ String """" "" = upto_quote (a ++ String """" b) ++ r.
Proof.
  intros a b. induction a as [|x a (r & IH)].
  - exists """". reflexivity.
  - cbn [append upto_quote]. destruct (Ascii.eqb x """").
    + eexists. reflexivity.
    + exists r. cbn [append]. rewrite <- IH. reflexivity.
Qed.
Lemma rfind_none : forall p s, lacks s p -> rfind p s = None.
Proof.
  intros p s L. apply find_none in L. induction s as [|x s IH]; cbn [find rfind] in *.
  - destruct (starts_with p ""); [discriminate|reflexivity].
  - destruct (starts_with p (String x s)); [discriminate|]. destruct (find p s); [discriminate|]. rewrite IH by reflexivity. reflexivity.
Qed.
Lemma rfind_last : forall c p a b, has c p = false -> lacks b (String c p) -> rfind (String c p) (a ++ String c p ++ b) = Some (String.length a).
Proof.
  intros c p a b H L. induction a as [|x a IH].
  - cbn [append]. cbn [rfind]. rewrite rfind_none; [|apply lacks_nohead; assumption].
    pose proof (starts_self (String c p) b) as S. cbn [append] in S. rewrite S. reflexivity.
  - cbn [append rfind String.length]. cbn [append] in IH. rewrite IH. reflexivity.
Qed.
Lemma base_url_found : forall head base p l, has_base head base -> base_url0 (document head (p :: l)) = Some base.
Proof.
  intros head base p l (h1 & h2 & -> & L1 & L2 & B1 & B2). unfold document. rewrite !sapp_assoc.
  assert (X : exists X, periods_text (p :: l) = "<Period id=" ++ String """" X).
  { cbn [periods_text]. unfold pt_text, pt_tag. rewrite !sapp_assoc. eexists. reflexivity. }
  destruct X as (X & ->).
  assert (HERE : base_url0 ("<BaseURL>" ++ base ++ "</BaseURL>" ++ h2 ++ "<Period id=" ++ String """" X) = Some base).
  { set (Y := h2 ++ "<Period id=" ++ String """" X). 
    assert (A : base_url_at ("<BaseURL>" ++ base ++ "</BaseURL>" ++ Y) = Some base).
    { unfold base_url_at. rewrite starts_self. change (drop 9 ("<BaseURL>" ++ base ++ "</BaseURL>" ++ Y)) with (base ++ "</BaseURL>" ++ Y).
      rewrite upto_app by (apply lacks_char; exact B2). rewrite (upto_app "</BaseURL>" Y) by reflexivity.
      cbv zeta. rewrite rfind_last; [rewrite take_app_len; reflexivity|reflexivity|].
      unfold Y. rewrite <- sapp_assoc. destruct (upto_stop (h2 ++ "<Period id=") X) as (r & R).
      assert (Q : lacks ((h2 ++ "<Period id=") ++ """") "</BaseURL>").
      { rewrite !sapp_assoc. change ("<Period id=" ++ """") with (String "<" "Period id=""").
        apply lacks_app_head; [reflexivity|exact L2|]. apply find_none. reflexivity. }
      rewrite R in Q. apply lacks_app_l in Q. exact Q. }
    change ("<BaseURL>" ++ base ++ "</BaseURL>" ++ Y) with (String "<" ("BaseURL>" ++ base ++ "</BaseURL>" ++ Y)) in *.
    cbn [base_url0]. rewrite A. reflexivity. }
  apply find_none in L1. induction h1 as [|x h1 IH]; [exact HERE|].
  set (Y := base ++ "</BaseURL>" ++ h2 ++ "<Period id=" ++ String """" X) in *.
  change (String x h1 ++ "<BaseURL>" ++ Y) with (String x (h1 ++ "<BaseURL>" ++ Y)). cbn [base_url0].
  cbn [find] in L1.
  assert (S : starts_with "<BaseURL>" (String x (h1 ++ "<BaseURL>" ++ Y)) = starts_with "<BaseURL>" (String x h1)).
  { exact (f_equal (andb (Ascii.eqb "<" x)) (starts_cut "BaseURL>" "<" h1 ("BaseURL>" ++ Y) eq_refl)). }
  destruct (starts_with "<BaseURL>" (String x h1)); [discriminate|]. unfold base_url_at at 1. rewrite S. apply IH.
  destruct (find "<BaseURL>" h1); [discriminate|reflexivity].
Qed.

(** ** All together *)
Lemma periods_app : forall l1 l2, periods_text (l1 ++ l2)%list = periods_text l1 ++ periods_text l2.
Proof. intros l1 l2. induction l1 as [|p l1 IH]; [reflexivity|]. cbn [List.app periods_text]. rewrite IH, !sapp_assoc. reflexivity. Qed.
Lemma outs_length : forall ad k b f l s, List.length (outs_of ad k b f s l) = List.length l.
Proof. intros ad k b f l. induction l as [|p l IH]; intros s; [reflexivity|]. cbn [outs_of List.length]. rewrite IH. reflexivity. Qed.
Lemma outs_nth : forall ad k b f l s i p o, 0 < k -> nth_error l i = Some p -> nth_error (outs_of ad k b f s l) i = Some o ->
  let go := chosen k p /\ (0 < ad -> s = true \/ exists j q, (j < i)%nat /\ nth_error l j = Some q /\ chosen k q) in
  (go -> o = pt_link ad b f p) /\ (~ go -> o = if 0 <? ad then pt_asset p else pt_text p).
Proof.
  intros ad k b f l. induction l as [|x l IH]; intros s i p o K P O; [destruct i; discriminate|].
  assert (CH : forall q, (pt_nr q mod k =? 0) = true <-> chosen k q).
  { intros q. unfold chosen. rewrite Z.eqb_eq. apply Z.mod_divide. lia. }
  destruct i as [|i]; cbn [nth_error outs_of] in P, O.
  - injection P as ->. injection O as <-. cbv zeta. specialize (CH p). destruct (pt_nr p mod k =? 0); cbn [andb].
    + assert (C : chosen k p) by (apply CH; reflexivity). destruct (Z.ltb_spec 0 ad) as [A|A]; cbn [negb orb].
      * destruct s; split; intros H.
        -- reflexivity.
        -- exfalso. apply H. split; [exact C|]. intros _. left. reflexivity.
        -- exfalso. destruct H as (_ & H). destruct (H A) as [H'|(j & q & J & _)]; [discriminate|lia].
        -- reflexivity.
      * split; intros H; [reflexivity|]. exfalso. apply H. split; [exact C|lia].
    + split; intros H; [|reflexivity]. exfalso. assert (X : false = true) by (apply CH; apply H). discriminate.
  - specialize (IH _ i p o K P O). cbv zeta in IH |- *.
    assert (EQ : ((s || (pt_nr x mod k =? 0)) = true \/ (exists j q, (j < i)%nat /\ nth_error l j = Some q /\ chosen k q))
                 <-> (s = true \/ exists j q, (j < S i)%nat /\ nth_error (x :: l) j = Some q /\ chosen k q)).
    { rewrite orb_true_iff, CH. split.
      - intros [[S|X]|(j & q & J & Q & R)]; [left; exact S|right; exists 0%nat, x; repeat split; [lia|exact X]|].
        right. exists (S j), q. repeat split; [lia|exact Q|exact R].
      - intros [S|(j & q & J & Q & R)]; [left; left; exact S|]. destruct j as [|j]; cbn [nth_error] in Q.
        + injection Q as <-. left. right. exact R.
        + right. exists j, q. repeat split; [lia|exact Q|exact R]. }
    split; intros H; apply IH; tauto.
Qed.
Lemma response_ok : forall head l base filename n m ad,
  0 < m <= n -> fine head l -> found_first head l ->
  Forall (fun p => lacks (base ++ filename) (pt_id p)) l -> (1 <= ad <= 5 \/ has_base head base) ->
  exists outs, response_with_xlink (document head l) (Ok (map pt_id l)) ".mpd" filename n m ad = Ok (head ++ weave outs l)
  /\ List.length outs = List.length l
  /\ forall i p o, nth_error l i = Some p -> nth_error outs i = Some o ->
     (linked ad (n / m) l i -> o = pt_link ad base filename p)
     /\ (~ linked ad (n / m) l i -> o = if 0 <? ad then pt_asset p else pt_text p).
Proof.
  intros head l base filename n m ad M (_ & F) I L B. assert (K : 0 < n / m) by (apply Z.div_str_pos; lia).
  exists (outs_of ad (n / m) base filename false l). split; [|split; [apply outs_length|]].
  - unfold response_with_xlink. cbn [String.eqb Ascii.eqb Bool.eqb bind]. unfold py_div. destruct (Z.eqb_spec m 0); [lia|]. cbn [bind].
    destruct (linked_ids_ok (n / m) l ltac:(lia)) as (lk & E & _). rewrite E. cbn [bind]. unfold document.
    destruct l as [|p l]; [cbn [map xlink_loop periods_text]; reflexivity|].
    apply (loop_ok _ base filename lk ad (n / m)); [|lia|exact F|exact I|exact L|apply linked_exists; [lia|exact E]].
    destruct B as [B|B]; [left; exact B|right]. exact (base_url_found head base p l B).
  - intros i p o P O. destruct (outs_nth _ _ _ _ _ _ i p o K P O) as (X & Y). cbv zeta in X, Y. unfold linked. split; intros H.
    + apply X. destruct H as (q & Q & C & H). rewrite P in Q. injection Q as <-. split; [exact C|]. intros A. right. exact (H A).
    + apply Y. intros (C & H'). apply H. exists p. split; [exact P|]. split; [exact C|]. intros A. destruct (H' A) as [D|D]; [discriminate|exact D].
Qed.

(** ** A link *)
Lemma split_none : forall c a, has c a = false -> split_all c a = [a].
Proof.
  intros c a. induction a as [|x a IH]; intros H; [reflexivity|]. cbn [has] in H. apply orb_false_iff in H. destruct H as (N & H).
  cbn [split_all]. rewrite Ascii.eqb_sym, N, IH by exact H. reflexivity.
Qed.
Lemma split_two : forall c a b, has c a = false -> has c b = false -> split_all c (a ++ String c b) = [a; b].
Proof.
  intros c a b H B. induction a as [|x a IH].
  - cbn [append split_all]. rewrite Ascii.eqb_refl, split_none by exact B. reflexivity.
  - cbn [has] in H. apply orb_false_iff in H. destruct H as (N & H). cbn [append split_all]. rewrite Ascii.eqb_sym, N, IH by exact H. reflexivity.
Qed.
Lemma core_quote : forall p, pt_fine p -> exists c, core p = c ++ """" /\ has ">" c = false.
Proof.
  intros p F. pose proof (core_gt p F) as G. destruct F as (_ & _ & [E|(a & E)] & _).
  - exists ("<Period id=""" ++ pt_id p). unfold core in *. rewrite E in *. rewrite sapp_nil in *. split; [rewrite sapp_assoc; reflexivity|].
    rewrite <- sapp_assoc, has_app in G. apply orb_false_iff in G. tauto.
  - exists ("<Period id=""" ++ pt_id p ++ """" ++ a). unfold core in *. rewrite E in *. split; [rewrite !sapp_assoc; reflexivity|].
    replace ("<Period id=""" ++ pt_id p ++ """" ++ a ++ """") with (("<Period id=""" ++ pt_id p ++ """" ++ a) ++ """") in G
      by (rewrite !sapp_assoc; reflexivity). rewrite has_app in G. apply orb_false_iff in G. tauto.
Qed.
Lemma take_len2 : forall a b c, take (String.length a) (a ++ b ++ c) = a.
Proof. intros. apply take_app_len. Qed.
Lemma period_reply_ok : forall head l1 p l2 f uri, Forall pt_fine (l1 ++ p :: l2)%list -> lacks (document head l1) (pt_id p) ->
  has_xmlns head uri -> lacks f "+" ->
  period_reply (document head (l1 ++ p :: l2)) (f ++ "+" ++ pt_id p ++ ".period")
  = Ok (pt_tag (pt_attrs p ++ " xmlns=""" ++ uri ++ """") p ++ pt_body p ++ "</Period>").
Proof.
  intros head l1 p l2 f uri F L (h1 & h2 & E & H1 & H2) N. assert (Fp : pt_fine p) by (apply Forall_app in F; destruct F as (_ & F); inversion F; assumption).
  unfold period_reply. change ("+" ++ pt_id p ++ ".period") with (String "+" (pt_id p ++ ".period")).
  rewrite split_two; [|apply lacks_char; exact N|rewrite has_app, id_has by (reflexivity || discriminate); reflexivity].
  cbv iota. change (-7) with (- slen ".period"). destruct (drop_suffix (pt_id p) ".period") as [-> |]; [|discriminate].
  set (s := document head (l1 ++ p :: l2)%list).
  assert (ES : s = document head l1 ++ pt_text p ++ (pt_gap p ++ periods_text l2)).
  { unfold s, document. rewrite periods_app. cbn [periods_text]. rewrite !sapp_assoc. reflexivity. }
  destruct (positions (document head l1) p (pt_gap p ++ periods_text l2) Fp L) as (P1 & P2 & P3 & _). cbv zeta in P1, P2, P3.
  rewrite <- ES in P1, P2, P3. rewrite P1, P2, P3. clear P1 P2 P3 ES.
  assert (ES : s = h1 ++ "xmlns=""" ++ (uri ++ """" ++ h2 ++ periods_text (l1 ++ p :: l2)%list)).
  { unfold s, document. rewrite E. rewrite !sapp_assoc. reflexivity. }
  assert (X1 : py_find "xmlns=" s = slen h1).
  { unfold py_find. rewrite ES. match goal with |- context [find _ (h1 ++ ?t)] => change t with (String "x" ("mlns=""" ++ (uri ++ """" ++ h2 ++ periods_text (l1 ++ p :: l2)%list))) end.
    rewrite find_skip by (reflexivity || exact H1).
    match goal with |- context [find _ ?t] => change t with ("xmlns=" ++ ("""" ++ (uri ++ """" ++ h2 ++ periods_text (l1 ++ p :: l2)%list))) end.
    rewrite find_here. cbn [option_map]. unfold slen. lia. }
  rewrite X1.
  assert (X2 : py_find_from """" s (slen h1 + 7) = slen (h1 ++ "xmlns=""") + Z.of_nat (String.length uri)).
  { replace (slen h1 + 7) with (slen (h1 ++ "xmlns=""")) by (rewrite slen_app; reflexivity). rewrite ES, <- sapp_assoc.
    apply find_from_app. rewrite find_nohead by (apply lacks_char; exact H2). rewrite find_here. cbn [option_map]. f_equal. lia. }
  rewrite X2.
  assert (X3 : str_slice (slen h1) (slen (h1 ++ "xmlns=""") + Z.of_nat (String.length uri) + 1) s = "xmlns=""" ++ uri ++ """").
  { replace (slen (h1 ++ "xmlns=""") + Z.of_nat (String.length uri) + 1) with (slen h1 + slen ("xmlns=""" ++ uri ++ """"))
      by (rewrite !slen_app; unfold slen; cbn [String.length]; lia).
    rewrite ES. replace ("xmlns=""" ++ uri ++ """" ++ h2 ++ periods_text (l1 ++ p :: l2)%list) with (("xmlns=""" ++ uri ++ """") ++ (h2 ++ periods_text (l1 ++ p :: l2)%list))
      by (rewrite !sapp_assoc; reflexivity). apply slice_mid. }
  rewrite X3. f_equal. destruct (core_quote p Fp) as (c & C & G).
  rewrite text_core, C. unfold replace_first.
  replace ((c ++ """") ++ String ">" (pt_body p ++ "</Period>")) with (c ++ String """" (">" ++ (pt_body p ++ "</Period>"))) by (rewrite sapp_assoc; reflexivity).
  assert (LC : lacks c """>").
  { intros (x & y & Q). rewrite Q, !has_app in G. cbn [append has] in G. change (Ascii.eqb ">" ">") with true in G. cbn in G. rewrite !orb_true_r in G. discriminate. }
  rewrite find_skip by (reflexivity || exact LC). change (String """" (">" ++ (pt_body p ++ "</Period>"))) with (""">" ++ (pt_body p ++ "</Period>")).
  rewrite find_here. cbn [option_map]. rewrite Nat.add_0_r, take_app_len.
  replace (drop (String.length c + String.length """>") (c ++ """>" ++ (pt_body p ++ "</Period>"))) with (pt_body p ++ "</Period>").
  2:{ rewrite <- len_app, <- sapp_assoc, drop_app_len. reflexivity. }
  unfold pt_tag. replace ("<Period id=""" ++ pt_id p ++ """" ++ (pt_attrs p ++ " xmlns=""" ++ uri ++ """") ++ ">") with (core p ++ " xmlns=""" ++ uri ++ """" ++ ">")
    by (unfold core; rewrite !sapp_assoc; reflexivity).
  rewrite C. sassoc. reflexivity.
Qed.
