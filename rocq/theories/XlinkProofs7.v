(** The written manifest meets the conditions on documents. *)
From Coq Require Import ZifyBool ZifyNat Znumtheory.
From Verif Require Import Base BaseProofs ConfigModel StrModel MpdModel XlinkModel XlinkSpec XlinkProofs XlinkProofs2 XlinkProofs3 XlinkProofs4 XlinkProofs5
  XlinkProofs6.
Local Open Scope string_scope.
Open Scope Z_scope.

Definition top (a : list (string * string)) (s : string) : string :=
  xml_intro ++ "<MPD xmlns=""urn:mpeg:dash:schema:mpd:2011""" ++ write_attrs a ++ ">" ++ escape false s.
Lemma full_top : forall a s kids, kids <> [] -> full_xml (Elem "MPD" a s kids) = top a s ++ write_kids kids ++ "</MPD>".
Proof.
  intros a s kids N. unfold full_xml, write_elem, top, xmlns_attr. destruct kids as [|y k]; [congruence|]. rewrite andb_false_r.
  sassoc. reflexivity.
Qed.
Lemma cut_shape : forall k, fst (cut k "</MPD>") = "" \/ exists r, fst (cut k "</MPD>") = String "<" r.
Proof.
  intros [|y k]; [right; eexists; reflexivity|]. cbn [cut]. destruct (cut k "</MPD>") as (h, l). destruct (is_tag "Period" y); [left; reflexivity|].
  right. destruct y. eexists. reflexivity.
Qed.
Lemma app_lacks : forall w s1 s2, has "<" w = false -> lacks s1 (String "<" w) -> lacks s2 (String "<" w) ->
  (s2 = "" \/ exists r, s2 = String "<" r) -> lacks (s1 ++ s2) (String "<" w).
Proof. intros w s1 s2 G L1 L2 [-> |(r & ->)]; [rewrite sapp_nil; exact L1|]. apply lacks_app_head; assumption. Qed.
(** the text in front of the first period contains no tag of a name its elements do not have *)
Lemma cut_head_lacks : forall T w k, guard T w -> lacks "</MPD>" (String "<" w) -> Forall names_plain k ->
  Forall (fun y => x_tag y <> "Period" -> nameless T y) k ->
  lacks (fst (cut k "</MPD>")) (String "<" w).
Proof.
  intros T w k G E NP NL. induction k as [|y k IH]; [exact E|]. inversion NP as [|? ? N1 N2]; subst. inversion NL as [|? ? L1 L2]; subst.
  specialize (IH N2 L2). pose proof (cut_shape k) as S. cbn [cut]. destruct (cut k "</MPD>") as (h, l). cbn [fst] in *. unfold is_tag. destruct (String.eqb_spec (x_tag y) "Period") as [P|P].
  - apply lacks_nil. discriminate.
  - apply app_lacks; [apply G|apply (write_lacks T w); auto|exact IH|exact S].
Qed.
Lemma period_open : guard "Period" "Period ". Proof. exact (guard_open "Period" " " period_plain (or_introl eq_refl)). Qed.
Lemma period_close : guard "Period" "/Period>". Proof. exact (guard_close "Period" period_plain). Qed.
Lemma base_open : guard "BaseURL" "BaseURL>". Proof. exact (guard_open "BaseURL" ">" base_plain (or_intror eq_refl)). Qed.
Lemma base_close : guard "BaseURL" "/BaseURL>". Proof. exact (guard_close "BaseURL" base_plain). Qed.
Lemma content_lacks : forall w n a s k, guard "Period" w -> Forall names_plain k -> Forall (nameless "Period") k ->
  lacks (content (Elem n a s k)) (String "<" w).
Proof.
  intros w n a s k G NP NL. unfold content. cbn [x_text x_kids]. apply lacks_nohead; [apply escape_lt|]. apply lacks_kids; [apply G|].
  rewrite Forall_forall in *. intros y Y. apply (write_lacks "Period"); auto.
Qed.
Lemma no_lacks : forall c s, has c s = false -> lacks s (String c "").
Proof. intros c s H O. apply occurs_char in O. congruence. Qed.
Lemma cut_fine : forall k, Forall names_plain k -> Forall child_ok k -> Forall pt_fine (snd (cut k "</MPD>")).
Proof.
  intros k NP F. induction k as [|y k IH]; [constructor|]. inversion NP as [|? ? N1 N2]; subst. inversion F as [|? ? (F1 & F2) Fk]; subst.
  specialize (IH N2 Fk).
  assert (H : lacks (fst (cut k "</MPD>")) "<Period ").
  { apply (cut_head_lacks "Period"); [exact period_open|apply find_none; reflexivity|exact N2|]. rewrite Forall_forall in *. intros z Z. apply (Fk z Z). }
  cbn [cut]. destruct (cut k "</MPD>") as (h, l). cbn [fst snd] in *. unfold is_tag. destruct (String.eqb_spec (x_tag y) "Period") as [P|P]; [|exact IH].
  cbn [snd]. constructor; [|exact IH]. destruct (F1 P) as (n & a & s & c & -> & _ & NC). destruct N1 as ((_ & NA) & NK). apply all_kids in NK.
  cbn [x_attrs List.tl]. inversion NA as [|? ? _ NA']; subst. unfold pt_fine. cbn [pt_attrs pt_body pt_gap].
  split; [apply no_lacks; apply attrs_free; auto|]. split; [apply no_lacks; apply attrs_free; auto|]. split; [apply attrs_end|].
  split; [apply (content_lacks "Period "); [exact period_open|exact NK|exact NC]|].
  split; [apply (content_lacks "/Period>"); [exact period_close|exact NK|exact NC]|exact H].
Qed.
Lemma cut_found : forall k H, Forall child_ok k ->
  (forall k1 y k2 p, k = (k1 ++ y :: k2)%list -> x_tag y = "Period" -> get "id" y = Some (pt_id p) -> lacks H (pt_id p) /\ Forall (unmentioned (pt_id p)) k1) ->
  found_first (H ++ fst (cut k "</MPD>")) (snd (cut k "</MPD>")).
Proof.
  intros k. induction k as [|y k IH]; intros H F U l1 p l2 E; [destruct l1; discriminate|].
  inversion F as [|? ? (F1 & F2) Fk]; subst.
  assert (U' : forall k1 z k2 q, k = (k1 ++ z :: k2)%list -> x_tag z = "Period" -> get "id" z = Some (pt_id q) ->
     lacks (H ++ write_xml y) (pt_id q) /\ Forall (unmentioned (pt_id q)) k1).
  { intros k1 z k2 q -> T I. destruct (U (y :: k1) z k2 q eq_refl T I) as (L & M). inversion M as [|? ? M1 M2]; subst. split; [|exact M2].
    apply unmentioned_lacks in M1. assert (X : exists r, write_xml y = String "<" r) by (destruct y; eexists; reflexivity).
    destruct X as (r & X). rewrite X in *. apply id_app; [reflexivity|discriminate|exact L|exact M1]. }
  specialize (IH (H ++ write_xml y) Fk U'). unfold found_first in IH. cbn [cut] in E |- *. destruct (cut k "</MPD>") as (h, l). cbn [fst snd] in *.
  revert E. unfold is_tag. destruct (String.eqb_spec (x_tag y) "Period") as [P|P]; cbn [fst snd]; intros E.
  - destruct l1 as [|q l1]; cbn [List.app] in E; injection E as E1 E2.
    + unfold document. cbn [periods_text]. rewrite !sapp_nil. destruct (F1 P) as (n & a & s & c & -> & _).
      refine (proj1 (U [] _ k p eq_refl eq_refl _)). rewrite <- E1. unfold pt_id. cbn [pt_nr]. rewrite ready_nr. reflexivity.
    + subst q. specialize (IH l1 p l2 E2). unfold document in *. cbn [periods_text pt_gap]. rewrite <- (ready_text y h (F1 P)).
      rewrite sapp_nil. rewrite !sapp_assoc in IH. exact IH.
  - specialize (IH l1 p l2 E). unfold document in *. rewrite !sapp_assoc in *. exact IH.
Qed.
Lemma top_lacks_id : forall p a s, silent (pt_id p) "MPD" a s -> lacks (top a s) (pt_id p).
Proof.
  intros p a s (T & A & S). unfold top.
  change (lacks ((xml_intro ++ String "<" ("MPD" ++ String " " ("xmlns=""urn:mpeg:dash:schema:mpd:2011" ++ String """" (write_attrs a ++ String ">" (escape false s)))))) (pt_id p)).
  sep "<"%char; [apply idlike_lacks; reflexivity|]. sep " "%char; [exact T|]. sep """"%char; [apply idlike_lacks; reflexivity|].
  sep ">"%char; [apply attrs_lacks; exact A|apply escape_lacks; exact S].
Qed.
Lemma top_lacks_tag : forall w a s, has "<" w = false -> Forall (fun kv => plain_name (fst kv)) a ->
  lacks xml_intro (String "<" w) -> (forall X, starts_with w ("MPD" ++ X) = false) -> lacks (top a s) (String "<" w).
Proof.
  intros w a s G A I M. unfold top.
  change (lacks (xml_intro ++ String "<" ("MPD xmlns=""urn:mpeg:dash:schema:mpd:2011""" ++ write_attrs a ++ ">" ++ escape false s)) (String "<" w)).
  apply lacks_app_head; [exact G|exact I|]. apply lacks_step.
  - cbn [starts_with]. change (Ascii.eqb "<" "<") with true. cbn [andb]. exact (M (" xmlns=""urn:mpeg:dash:schema:mpd:2011""" ++ write_attrs a ++ ">" ++ escape false s)).
  - rewrite <- (sapp_nil (_ ++ _)). apply lacks_nohead; [|apply lacks_nil; discriminate]. rewrite !has_app, escape_lt, attrs_free by auto. reflexivity.
Qed.

(** ** The manifest as a document *)
Definition head_of (a : list (string * string)) (s : string) (kids : list xml) : string := top a s ++ fst (cut kids "</MPD>").
Lemma manifest_document : forall a s kids, let x := Elem "MPD" a s kids in manifest_ready x ->
  let l := snd (cut kids "</MPD>") in
  Forall child_ok kids /\ Forall names_plain kids /\ kids <> []
  /\ full_xml x = document (head_of a s kids) l /\ period_ids x = Ok (map pt_id l)
  /\ fine (head_of a s kids) l /\ found_first (head_of a s kids) l.
Proof.
  intros a s kids x (a' & s' & kids' & E & NP & NE & CH & UN) l. subst x. injection E as <- <- <-.
  destruct NP as ((_ & NA) & NK). apply all_kids in NK. change (Forall child_ok kids) in CH.
  split; [exact CH|]. split; [exact NK|]. split; [exact NE|].
  split; [|split; [|split]].
  - rewrite full_top by exact NE. unfold document, head_of. rewrite sapp_assoc, cut_text by exact CH. reflexivity.
  - unfold period_ids. cbn [x_kids]. apply cut_ids. exact CH.
  - split; [|apply cut_fine; assumption]. unfold head_of. apply app_lacks; [reflexivity| | |apply cut_shape].
    + apply (top_lacks_tag "Period "); [reflexivity|exact NA|apply find_none; reflexivity|intros X; reflexivity].
    + apply (cut_head_lacks "Period"); [exact period_open|apply find_none; reflexivity|exact NK|]. rewrite Forall_forall in *. intros z Z. apply (CH z Z).
  - apply cut_found; [exact CH|]. intros k1 y k2 p E T I. destruct (UN k1 y k2 (pt_id p) E T I) as (U1 & U2). split; [apply top_lacks_id; exact U1|exact U2].
Qed.
Lemma escape_quote : forall s, has """" s = false -> has """" (escape false s) = false.
Proof.
  intros s. induction s as [|b s IH]; [reflexivity|]. cbn [has escape]. intros H. apply orb_false_iff in H. destruct H as (H1 & H2).
  rewrite has_app, (IH H2), orb_false_r. destruct (Ascii.eqb b "&"); [reflexivity|]. destruct (Ascii.eqb b "<"); [reflexivity|].
  destruct (Ascii.eqb b ">"); [reflexivity|]. cbn [andb has]. rewrite H1. reflexivity.
Qed.
Lemma cut_pre : forall pre y r, Forall (fun z => x_tag z <> "Period") (pre ++ [y]) ->
  fst (cut (pre ++ y :: r) "</MPD>") = write_kids pre ++ write_xml y ++ fst (cut r "</MPD>").
Proof.
  intros pre y r. induction pre as [|z pre IH]; intros F; inversion F as [|? ? F1 F2]; subst; cbn [List.app cut].
  - destruct (cut r "</MPD>") as (h, l). unfold is_tag. destruct (String.eqb_spec (x_tag y) "Period"); [contradiction|]. reflexivity.
  - specialize (IH F2). destruct (cut (pre ++ y :: r) "</MPD>") as (h, l). unfold is_tag. destruct (String.eqb_spec (x_tag z) "Period"); [contradiction|].
    cbn [fst] in *. rewrite IH. cbn [write_kids fold_right]. rewrite !sapp_assoc. reflexivity.
Qed.
Lemma manifest_base : forall a s kids url, Forall names_plain kids -> Forall (fun kv => plain_name (fst kv)) a ->
  one_base (Elem "MPD" a s kids) url -> has_base (head_of a s kids) (escape false url).
Proof.
  intros a s kids url NK NA (pre & post & E & NP & NL & NU & QU). cbn [x_kids] in E. subst kids.
  apply Forall_app in NK. destruct NK as (NK1 & NK2). inversion NK2 as [|? ? _ NK3]; subst. apply Forall_app in NL. destruct NL as (NL1 & NL2).
  exists (top a s ++ write_kids pre), (fst (cut post "</MPD>")). split.
  - unfold head_of. rewrite cut_pre by (apply Forall_app; split; [exact NP|constructor; [discriminate|constructor]]).
    cbn [write_xml fold_right write_attrs]. unfold write_elem. destruct (String.eqb_spec url ""); [contradiction|]. cbn [andb].
    sassoc. reflexivity.
  - split; [|split; [|split]].
    + apply app_lacks; [reflexivity| | |].
      * apply (top_lacks_tag "BaseURL>"); [reflexivity|exact NA|apply find_none; reflexivity|intros X; reflexivity].
      * apply lacks_kids; [reflexivity|]. rewrite Forall_forall in *. intros y Y. apply (write_lacks "BaseURL"); [exact base_open|auto|auto].
      * destruct pre as [|y pre]; [left; reflexivity|right; destruct y; eexists; reflexivity].
    + apply (cut_head_lacks "BaseURL"); [exact base_close|apply find_none; reflexivity|exact NK3|]. rewrite Forall_forall in *. auto.
    + apply no_lacks. apply escape_lt.
    + apply no_lacks. apply escape_quote. apply lacks_char. exact QU.
Qed.
Lemma manifest_xmlns : forall a s kids, has_xmlns (head_of a s kids) "urn:mpeg:dash:schema:mpd:2011".
Proof.
  intros a s kids. exists (xml_intro ++ "<MPD "), (write_attrs a ++ ">" ++ escape false s ++ fst (cut kids "</MPD>")). split.
  - unfold head_of, top. sassoc. reflexivity.
  - split; apply find_none; reflexivity.
Qed.
(** ** The children delivered *)
Lemma chosen_nr : forall k y, 0 < k -> child_ok y -> (child_chosen k y <-> x_tag y = "Period" /\ nr_of y mod k = 0).
Proof.
  intros k y K (F1 & _). split.
  - intros (n & (T & I) & D). split; [exact T|]. destruct (F1 T) as (n' & a & s & c & -> & _). rewrite ready_id in I. rewrite ready_nr.
    injection I as I. apply print_Z_inj in I. subst n'. apply Z.mod_divide; [lia|exact D].
  - intros (T & M). destruct (F1 T) as (n & a & s & c & -> & _). rewrite ready_nr in M. exists n. split; [split; [reflexivity|apply ready_id]|].
    apply Z.mod_divide; [lia|exact M].
Qed.
Lemma out_length : forall ad k b f l s, List.length (out_kids ad k b f s l) = List.length l.
Proof. intros ad k b f l. induction l as [|y l IH]; intros s; [reflexivity|]. cbn [out_kids]. destruct (is_tag "Period" y); cbn [List.length]; rewrite IH; reflexivity. Qed.
Lemma out_nth : forall ad k b f, 0 < k -> forall kids s i y o, Forall child_ok kids -> nth_error kids i = Some y -> nth_error (out_kids ad k b f s kids) i = Some o ->
  let go := child_chosen k y /\ (0 < ad -> s = true \/ exists j z, (j < i)%nat /\ nth_error kids j = Some z /\ child_chosen k z) in
  (go -> o = link_text ad b f (nr_of y) y)
  /\ (~ go -> o = if (x_tag y =? "Period")%string && (0 <? ad) then asset_text y else write_xml y).
Proof.
  intros ad k b f K kids. induction kids as [|x kids IH]; intros s i y o F Y O; [destruct i; discriminate|].
  inversion F as [|? ? F1 F2]; subst. cbn [out_kids] in O. destruct i as [|i].
  - cbn [nth_error] in Y, O. injection Y as ->. pose proof (chosen_nr k y K F1) as C. cbv zeta. unfold is_tag in O.
    destruct (String.eqb_spec (x_tag y) "Period") as [P|P]; cbn [andb].
    + cbn [nth_error] in O. injection O as <-. destruct (Z.eqb_spec (nr_of y mod k) 0) as [M|M]; cbn [andb].
      * assert (CC : child_chosen k y) by tauto. destruct (Z.ltb_spec 0 ad) as [A|A]; cbn [negb orb].
        -- destruct s; split; intros H.
           ++ reflexivity.
           ++ exfalso. apply H. split; [exact CC|]. intros _. left. reflexivity.
           ++ exfalso. destruct H as (_ & H). destruct (H A) as [H'|(j & z & J & _)]; [discriminate|lia].
           ++ reflexivity.
        -- split; intros H; [reflexivity|]. exfalso. apply H. split; [exact CC|lia].
      * split; intros H; [|reflexivity]. exfalso. tauto.
    + cbn [nth_error] in O. injection O as <-. split; intros H; [exfalso; tauto|reflexivity].
  - cbn [nth_error] in Y.
    assert (X : exists s', nth_error (out_kids ad k b f s' kids) i = Some o /\ (s' = true <-> s = true \/ child_chosen k x)).
    { pose proof (chosen_nr k x K F1) as C. unfold is_tag in O. destruct (String.eqb_spec (x_tag x) "Period") as [P|P]; cbn [nth_error] in O.
      - exists (s || (nr_of x mod k =? 0)). split; [exact O|]. rewrite orb_true_iff, Z.eqb_eq. tauto.
      - exists s. split; [exact O|]. tauto. }
    destruct X as (s' & O' & S'). specialize (IH s' i y o F2 Y O'). cbv zeta in IH |- *.
    assert (EQ : (s' = true \/ (exists j z, (j < i)%nat /\ nth_error kids j = Some z /\ child_chosen k z))
                 <-> (s = true \/ exists j z, (j < S i)%nat /\ nth_error (x :: kids) j = Some z /\ child_chosen k z)).
    { rewrite S'. split.
      - intros [[S|X]|(j & q & J & Q & R)]; [left; exact S|right; exists 0%nat, x; repeat split; [lia|exact X]|].
        right. exists (S j), q. repeat split; [lia|exact Q|exact R].
      - intros [S|(j & q & J & Q & R)]; [left; left; exact S|]. destruct j as [|j]; cbn [nth_error] in Q.
        + injection Q as <-. left. right. exact R.
        + right. exists j, q. repeat split; [lia|exact Q|exact R]. }
    split; intros H; apply IH; tauto.
Qed.

(** ** The whole manifest *)
Lemma manifest_ok : forall x base filename n m ad,
  0 < m <= n -> manifest_ready x ->
  (forall y k, In y (x_kids x) -> period_nr y k -> lacks (escape false base ++ filename) ("p" ++ print_Z k)) ->
  (1 <= ad <= 5 \/ one_base x base) ->
  exists outs, response_with_xlink (full_xml x) (period_ids x) ".mpd" filename n m ad = Ok (manifest_text x outs)
  /\ List.length outs = List.length (x_kids x)
  /\ forall i y o, nth_error (x_kids x) i = Some y -> nth_error outs i = Some o ->
     (child_linked ad (n / m) (x_kids x) i -> forall k, period_nr y k -> o = link_text ad (escape false base) filename k y)
     /\ (~ child_linked ad (n / m) (x_kids x) i -> o = if (x_tag y =? "Period")%string && (0 <? ad) then asset_text y else write_xml y).
Proof.
  intros x base filename n m ad M R L B. assert (K : 0 < n / m) by (apply Z.div_str_pos; lia).
  pose proof R as R0. destruct R0 as (a & s & kids & -> & ((_ & NA) & _) & _). destruct (manifest_document a s kids R) as (CH & NK & NE & D & I & (F0 & F) & FF).
  cbn [x_kids] in *. set (l := snd (cut kids "</MPD>")) in *.
  assert (LL : Forall (fun p => lacks (escape false base ++ filename) (pt_id p)) l).
  { assert (X : forall p, In p l -> exists y, In y kids /\ period_nr y (pt_nr p)).
    { subst l. clear -CH. induction kids as [|y k IH]; [intros p []|]. inversion CH as [|? ? (F1 & F2) Fk]; subst. specialize (IH Fk).
      cbn [cut]. destruct (cut k "</MPD>") as (h, l). cbn [snd] in IH. unfold is_tag. destruct (String.eqb_spec (x_tag y) "Period") as [T|T]; cbn [snd].
      - intros p [<- |P]; [|destruct (IH p P) as (z & Z1 & Z2); exists z; split; [right|]; assumption].
        exists y. split; [left; reflexivity|]. split; [exact T|]. cbn [pt_nr]. destruct (F1 T) as (n & a & s & c & -> & _). rewrite ready_nr. apply ready_id.
      - intros p P. destruct (IH p P) as (z & Z1 & Z2); exists z; split; [right|]; assumption. }
    rewrite Forall_forall. intros p P. destruct (X p P) as (y & Y & N). exact (L y (pt_nr p) Y N). }
  exists (out_kids ad (n / m) (escape false base) filename false kids). split; [|split; [apply out_length|]].
  - unfold response_with_xlink. cbn [String.eqb Ascii.eqb Bool.eqb bind]. rewrite I, D. cbn [bind].
    unfold py_div. destruct (Z.eqb_spec m 0); [lia|]. cbn [bind].
    destruct (linked_ids_ok (n / m) l ltac:(lia)) as (lk & E & _). rewrite E. cbn [bind].
    assert (T : manifest_text (Elem "MPD" a s kids) (out_kids ad (n / m) (escape false base) filename false kids)
              = head_of a s kids ++ weave (outs_of ad (n / m) (escape false base) filename false l) l).
    { unfold head_of. rewrite sapp_assoc. subst l. rewrite cut_out by exact CH. unfold manifest_text, top. sassoc. reflexivity. }
    rewrite T. unfold document. destruct l as [|p l]; [cbn [map xlink_loop periods_text outs_of weave]; reflexivity|].
    apply (loop_ok _ (escape false base) filename lk ad (n / m)); [|lia|exact F|exact FF|exact LL|apply linked_exists; [lia|exact E]].
    destruct B as [B|B]; [left; exact B|right]. apply (base_url_found _ _ p l). apply manifest_base; assumption.
  - intros i y o Y O. destruct (out_nth ad (n / m) _ _ K kids false i y o CH Y O) as (X1 & X2). cbv zeta in X1, X2. unfold child_linked. split; intros H.
    + intros k (T & G). assert (EK : nr_of y = k).
      { rewrite Forall_forall in CH. destruct (CH y (nth_error_In _ _ Y)) as (F1 & _). destruct (F1 T) as (n' & a' & s' & c' & -> & _).
        rewrite ready_nr. rewrite ready_id in G. injection G as G. apply print_Z_inj in G. exact G. }
      subst k. apply X1. destruct H as (q & Q & C & H). rewrite Y in Q. injection Q as <-. split; [exact C|]. intros A. right. exact (H A).
    + apply X2. intros (C & H'). apply H. exists y. split; [exact Y|]. split; [exact C|]. intros A. destruct (H' A) as [E|E]; [discriminate|exact E].
Qed.

(** ** Resolving a link *)
Lemma cut_at : forall k1 y k2, Forall child_ok (k1 ++ y :: k2) -> x_tag y = "Period" ->
  exists l1 p l2, snd (cut (k1 ++ y :: k2) "</MPD>") = (l1 ++ p :: l2)%list /\ pt_nr p = nr_of y
  /\ pt_attrs p = write_attrs (List.tl (x_attrs y)) /\ pt_body p = content y.
Proof.
  intros k1 y k2 F T. induction k1 as [|z k1 IH]; cbn [List.app] in *.
  - cbn [cut]. destruct (cut k2 "</MPD>") as (h, l). unfold is_tag. rewrite T. cbn. exists [], (mk_ptext (nr_of y) (write_attrs (List.tl (x_attrs y))) (content y) h), l. auto.
  - inversion F as [|? ? _ Fk]; subst. destruct (IH Fk) as (l1 & p & l2 & E & P). cbn [cut]. destruct (cut (k1 ++ y :: k2) "</MPD>") as (h, l).
    cbn [snd] in E. subst l. unfold is_tag. destruct (x_tag z =? "Period")%string; cbn [snd].
    + eexists (_ :: l1), p, l2. split; [reflexivity|exact P].
    + exists l1, p, l2. split; [reflexivity|exact P].
Qed.
Lemma resolve_ok : forall x y k f, manifest_ready x -> In y (x_kids x) -> period_nr y k -> lacks f "+" ->
  response_with_xlink (full_xml x) (period_ids x) ".period" (f ++ "+" ++ "p" ++ print_Z k ++ ".period") 0 0 0
  = Ok (write_xml (Elem "Period" (x_attrs y ++ [("xmlns", "urn:mpeg:dash:schema:mpd:2011")]) (x_text y) (x_kids y))).
Proof.
  intros x y k f R Y (T & G) N. pose proof R as R0. destruct R0 as (a & s & kids & -> & _). destruct (manifest_document a s kids R) as (CH & NK & NE & D & I & (F0 & F) & FF).
  cbn [x_kids] in *. set (l := snd (cut kids "</MPD>")) in *. apply in_split in Y. destruct Y as (k1 & k2 & E).
  assert (CH' := CH). rewrite E in CH'. destruct (cut_at k1 y k2 CH' T) as (l1 & p & l2 & EL & P1 & P2 & P3). rewrite <- E in EL. fold l in EL.
  rewrite Forall_forall in CH. destruct (CH y ltac:(rewrite E; apply in_elt)) as (Q & _). destruct (Q T) as (n & b & t & c & -> & NN & _). rewrite ready_id in G. injection G as G.
  apply print_Z_inj in G. subst n. rewrite ready_nr in P1. cbn [x_attrs List.tl] in P2.
  unfold response_with_xlink. cbn [String.eqb Ascii.eqb Bool.eqb bind]. rewrite D, EL. rewrite EL in F, FF.
  assert (Z : pt_id p = "p" ++ print_Z k) by (unfold pt_id; rewrite P1; reflexivity).
  change ("p" ++ print_Z k ++ ".period") with (("p" ++ print_Z k) ++ ".period"). rewrite <- Z.
  rewrite (period_reply_ok (head_of a s kids) l1 p l2 f "urn:mpeg:dash:schema:mpd:2011" F (FF l1 p l2 eq_refl) (manifest_xmlns a s kids) N).
  f_equal. unfold pt_tag. rewrite Z, P2, P3. cbn [x_attrs x_text x_kids].
  set (q := Elem "Period" ((("id", "p" ++ print_Z k) :: b) ++ [("xmlns", "urn:mpeg:dash:schema:mpd:2011")]) t c).
  assert (RQ : exists n a s k, q = Elem "Period" (("id", "p" ++ print_Z n) :: a) s k /\ (s <> "" \/ k <> []) /\ Forall (nameless "Period") k).
  { exists k, (b ++ [("xmlns", "urn:mpeg:dash:schema:mpd:2011")])%list, t, c. split; [reflexivity|]. split; [exact NN|].
    destruct (Q T) as (? & ? & ? & ? & E' & _ & W). injection E' as _ _ _ ->. exact W. }
  rewrite (ready_text q "" RQ). unfold pt_text, pt_tag, pt_id. cbn [pt_attrs pt_body pt_nr]. unfold q. cbn [List.app]. rewrite ready_nr. cbn [x_attrs List.tl].
  assert (W : write_attrs (b ++ [("xmlns", "urn:mpeg:dash:schema:mpd:2011")]) = write_attrs b ++ " xmlns=""urn:mpeg:dash:schema:mpd:2011""").
  { clear. induction b as [|kv b IH]; [reflexivity|]. cbn [List.app write_attrs fold_right] in *. change (fold_right _ "" ?z) with (write_attrs z) in *. unfold write_attrs in *. rewrite IH. rewrite sapp_assoc. reflexivity. }
  rewrite W. reflexivity.
Qed.
