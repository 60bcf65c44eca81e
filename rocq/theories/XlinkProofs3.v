(** The loop over the periods, continued. *)
From Coq Require Import ZifyBool ZifyNat Znumtheory.
From Verif Require Import Base BaseProofs ConfigModel StrModel MpdModel XlinkModel XlinkSpec XlinkProofs XlinkProofs2.
Local Open Scope string_scope.
Open Scope Z_scope.

Lemma lacks_step : forall p a s, starts_with p (String a s) = false -> lacks s p -> lacks (String a s) p.
Proof. intros p a s S L. apply find_none. cbn [find]. rewrite S. apply find_none in L. rewrite L. reflexivity. Qed.
Lemma quote_split : forall c a b u v, has c a = false -> has c b = false -> a ++ String c u = b ++ String c v -> a = b.
Proof.
  intros c a. induction a as [|x a IH]; intros [|y b] u v A B E.
  - reflexivity.
  - cbn [append] in E. injection E as <- _. cbn [has] in B. rewrite Ascii.eqb_refl in B. discriminate.
  - cbn [append] in E. injection E as -> _. cbn [has] in A. rewrite Ascii.eqb_refl in A. discriminate.
  - cbn [append] in E. injection E as -> E. cbn [has] in A, B. apply orb_false_iff in A, B. f_equal. apply (IH b u v); tauto.
Qed.
Lemma mark_other : forall p q X, pt_nr p <> pt_nr q -> starts_with (String "<" (mark p)) (core q ++ X) = false.
Proof.
  intros p q X N. destruct (starts_with _ _) eqn:E; [|reflexivity]. apply starts_exists in E. destruct E as (b & E).
  rewrite core_mark in E. unfold mark in E. sassoc. cbn [append] in E. rewrite !sapp_assoc in E. cbn [append] in E.
  injection E as E. elim N. apply id_inj. unfold pt_id. cbn [append]. f_equal. symmetry.
  apply (quote_split """"%char _ _ _ _ (idc_has """"%char _ (print_idc _) eq_refl) (idc_has """"%char _ (print_idc _) eq_refl) E).
Qed.
Lemma lacks_gap : forall g p, lacks g "<Period " -> lacks g (String "<" (mark p)).
Proof. intros g p L. change (String "<" (mark p)) with ("<Period " ++ ("id=""" ++ pt_id p ++ """")). apply lacks_longer. exact L. Qed.
Lemma other_marks : forall p l g, Forall pt_fine l -> Forall (fun q => pt_nr p <> pt_nr q) l -> lacks g "<Period " ->
  lacks (g ++ periods_text l) (String "<" (mark p)).
Proof.
  intros p l. induction l as [|q l IH]; intros g F N G; cbn [periods_text].
  - rewrite sapp_nil. apply lacks_gap. exact G.
  - inversion F as [|? ? Fq Fl]; subst. inversion N as [|? ? Nq Nl]; subst.
    assert (Q : lacks (pt_text q ++ pt_gap q ++ periods_text l) (String "<" (mark p))).
    { rewrite text_core. destruct (core_lt q Fq) as (r & E & H). pose proof Fq as (_ & _ & _ & B & _ & G').
      assert (E2 : (core q ++ String ">" (pt_body q ++ "</Period>")) ++ pt_gap q ++ periods_text l
                   = String "<" ((r ++ ">") ++ pt_body q ++ String "<" ("/Period>" ++ (pt_gap q ++ periods_text l))))
        by (rewrite E; sassoc; reflexivity).
      rewrite E2. apply lacks_step.
      - pose proof (mark_other p q (">" ++ pt_body q ++ String "<" ("/Period>" ++ (pt_gap q ++ periods_text l))) Nq) as S.
        rewrite E in S. rewrite !sapp_assoc. exact S.
      - apply lacks_nohead; [rewrite has_app, H; reflexivity|].
        apply lacks_app_head; [apply mark_has|apply lacks_gap; exact B|].
        apply lacks_step; [reflexivity|]. apply lacks_nohead; [reflexivity|]. apply IH; assumption. }
    destruct (text_start q) as (r & E). rewrite E in Q |- *. cbn [append] in Q |- *.
    apply lacks_app_head; [apply mark_has|apply lacks_gap; exact G|exact Q].
Qed.
Lemma replace_period : forall D p new X, lacks D (pt_id p) -> lacks X (String "<" (mark p)) ->
  py_replace (pt_text p) new (D ++ pt_text p ++ X) = D ++ new ++ X.
Proof.
  intros D p new X L M.
  assert (E : pt_text p = String "<" (mark p) ++ (pt_attrs p ++ String ">" (pt_body p ++ "</Period>"))).
  { rewrite text_core, core_mark, sapp_assoc. reflexivity. }
  rewrite E. apply replace_once; [apply mark_has| |exact M].
  change (String "<" (mark p)) with ("<Period id=""" ++ pt_id p ++ """"). apply lacks_inner. exact L.
Qed.

(** ** The links *)
Definition bare_link (ad : Z) (base filename : string) (p : ptext) : string := link_to (remote ad base filename p).
Lemma xlink_period_ok : forall b ad base filename p, 1 <= ad <= 5 \/ b = Some base ->
  xlink_period b filename (pt_id p) ad = Ok (bare_link ad base filename p).
Proof.
  intros b ad base filename p H. unfold xlink_period, bare_link, remote.
  destruct (Z.eqb_spec ad 4) as [->|N4]; [reflexivity|]. destruct (Z.eqb_spec ad 3) as [->|N3]; [reflexivity|].
  destruct (Z.eqb_spec ad 2) as [->|N2]; [reflexivity|]. destruct (Z.eqb_spec ad 1) as [->|N1]; [reflexivity|].
  destruct (Z.eqb_spec ad 5) as [->|N5]; [reflexivity|]. cbn [orb]. destruct H as [H| ->]; [lia|]. reflexivity.
Qed.
Lemma bare_is_link : forall ad base filename p, ad <> 5 -> bare_link ad base filename p = pt_link ad base filename p.
Proof.
  intros ad base filename p N. unfold bare_link, link_to, pt_link, xlink_tail. destruct (Z.eqb_spec ad 5); [contradiction|].
  reflexivity.
Qed.
Lemma drop_suffix : forall a b, str_slice 0 (- slen b) (a ++ b) = a \/ b = "".
Proof.
  intros a b. destruct b as [|x b]; [right; reflexivity|left]. unfold str_slice, fix_bound. rewrite slen_app.
  pose proof (slen_nonneg a). assert (0 < slen (String x b)) by (unfold slen; cbn [String.length]; lia).
  destruct (Z.ltb_spec (- slen (String x b)) 0); [|lia]. destruct (Z.ltb_spec 0 0); [lia|].
  rewrite Z.max_r by lia. replace (Z.to_nat (Z.min 0 (slen a + slen (String x b)))) with 0%nat by lia.
  replace (Z.to_nat (slen a + slen (String x b) + - slen (String x b)) - 0)%nat with (String.length a) by (unfold slen; lia).
  change (drop 0 (a ++ String x b)) with (a ++ String x b). apply take_app_len.
Qed.
Lemma default_is_link : forall base filename p, pt_fine p -> with_default (pt_text p) (bare_link 5 base filename p) = pt_link 5 base filename p.
Proof.
  intros base filename p F. unfold with_default, py_find. rewrite <- (sapp_nil (pt_text p)) at 1. rewrite (find_gt p "" F).
  set (L := "<Period xlink:href=""" ++ remote 5 base filename p ++ """ xlink:actuate=""onLoad"" xmlns:xlink=""http://www.w3.org/1999/xlink"">").
  assert (E : bare_link 5 base filename p = L ++ "</Period>") by (unfold bare_link, link_to, xlink_tail, L; sassoc; reflexivity).
  rewrite E. change (-9) with (- slen "</Period>"). destruct (drop_suffix L "</Period>") as [-> |]; [|discriminate].
  replace (Z.of_nat (String.length (core p)) + 1) with (slen (core p ++ ">")) by (rewrite slen_app; unfold slen; cbn [String.length]; lia).
  assert (T : pt_text p = (core p ++ ">") ++ pt_body p ++ "</Period>") by (rewrite text_core, sapp_assoc; reflexivity).
  rewrite T, slice_post. unfold pt_link, L, default_comment. change (5 =? 5) with true. cbn iota. sassoc. reflexivity.
Qed.
Ltac sep c := apply (id_mid _ c); [reflexivity|discriminate| |].
Lemma remote_lacks : forall ad base filename q p, lacks (pt_text q) (pt_id p) -> lacks (base ++ filename) (pt_id p) ->
  lacks (remote ad base filename q) (pt_id p).
Proof.
  intros ad base filename q p T B. unfold remote.
  do 5 (match goal with |- context [if ?b then _ else _] => destruct b end; [apply idlike_lacks; reflexivity|]).
  rewrite <- sapp_assoc. change ("+" ++ pt_id q ++ ".period") with (String "+" (pt_id q ++ ".period")). sep "+"%char; [exact B|].
  change ".period" with (String "." "period"). sep "."%char; [|apply idlike_lacks; reflexivity].
  intros (a & b & E). apply T. exists ("<Period id=""" ++ a), (b ++ """" ++ pt_attrs q ++ ">" ++ pt_body q ++ "</Period>").
  unfold pt_text, pt_tag. rewrite E. sassoc. reflexivity.
Qed.
Lemma body_lacks : forall q p, lacks (pt_text q) (pt_id p) -> lacks (pt_body q) (pt_id p).
Proof. intros q p L. unfold pt_text in L. apply lacks_app_r in L. apply lacks_app_l in L. exact L. Qed.
Lemma link_lacks : forall ad base filename q p, lacks (pt_text q) (pt_id p) -> lacks (base ++ filename) (pt_id p) ->
  lacks (pt_link ad base filename q) (pt_id p).
Proof.
  intros ad base filename q p T B. unfold pt_link.
  change ("<Period xlink:href=""" ++ remote ad base filename q
  ++ """ xlink:actuate=""onLoad"" xmlns:xlink=""http://www.w3.org/1999/xlink"">"
  ++ (if ad =? 5 then String "010" "<!--Default content that will be played if the xlink is not able to load.-->" ++ pt_body q else "")
  ++ "</Period>")
  with ("<Period xlink:href=" ++ String """" (remote ad base filename q
  ++ String """" (" xlink:actuate=""onLoad"" xmlns:xlink=""http://www.w3.org/1999/xlink" ++ String """" (">"
  ++ (if ad =? 5 then String "010" "<!--Default content that will be played if the xlink is not able to load.-->" ++ pt_body q else "")
  ++ "</Period>")))).
  sep """"%char; [apply idlike_lacks; reflexivity|]. sep """"%char; [apply remote_lacks; assumption|].
  sep """"%char; [apply idlike_lacks; reflexivity|].
  change (">" ++ (if ad =? 5 then String "010" "<!--Default content that will be played if the xlink is not able to load.-->" ++ pt_body q else "") ++ "</Period>")
    with ("" ++ String ">" ((if ad =? 5 then String "010" "<!--Default content that will be played if the xlink is not able to load.-->" ++ pt_body q else "") ++ String "<" "/Period>")).
  sep ">"%char; [apply lacks_nil; discriminate|]. sep "<"%char; [|apply idlike_lacks; reflexivity].
  destruct (ad =? 5); [|apply lacks_nil; discriminate].
  change (String "010" "<!--Default content that will be played if the xlink is not able to load.-->")
    with (String "010" "<!--Default content that will be played if the xlink is not able to load.--" ++ ">").
  rewrite sapp_assoc. change (">" ++ pt_body q) with (String ">" (pt_body q)).
  sep ">"%char; [apply idlike_lacks; reflexivity|apply body_lacks; exact T].
Qed.
Lemma asset_lacks : forall q p, lacks (pt_text q) (pt_id p) -> lacks (pt_asset q) (pt_id p).
Proof.
  intros q p T. unfold pt_asset. rewrite tag_core, sapp_assoc.
  change (String "010" "<AssetIdentifier schemeIdUri=""urn:org:dashif:asset-id:2013"" value=""md:cid:EIDR:10.5240%2f0EFB-02CD-126E-8092-1E49-W""></AssetIdentifier>")
    with (String "010" "<AssetIdentifier schemeIdUri=""urn:org:dashif:asset-id:2013"" value=""md:cid:EIDR:10.5240%2f0EFB-02CD-126E-8092-1E49-W""></AssetIdentifier" ++ ">").
  rewrite sapp_assoc. rewrite text_core in T. pose proof (lacks_app_l _ _ _ T) as C. apply lacks_app_r in T.
  change (String ">" (pt_body q ++ "</Period>")) with (">" ++ (pt_body q ++ "</Period>")) in T. apply lacks_app_r in T.
  cbn [append]. sep ">"%char; [exact C|].
  match goal with |- lacks (String ?a ?x) _ => change (String a x) with ("" ++ String a x) end.
  sep "010"%char; [apply lacks_nil; discriminate|].
  change (lacks ("<AssetIdentifier schemeIdUri=""urn:org:dashif:asset-id:2013"" value=""md:cid:EIDR:10.5240%2f0EFB-02CD-126E-8092-1E49-W""></AssetIdentifier"
    ++ String ">" (pt_body q ++ "</Period>")) (pt_id p)).
  sep ">"%char; [apply idlike_lacks; reflexivity|exact T].
Qed.
