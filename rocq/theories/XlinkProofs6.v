(** The written manifest is a document of periods. *)
From Coq Require Import ZifyBool ZifyNat Znumtheory.
From Verif Require Import Base BaseProofs ConfigModel StrModel MpdModel XlinkModel XlinkSpec XlinkProofs XlinkProofs2 XlinkProofs3 XlinkProofs4 XlinkProofs5.
Local Open Scope string_scope.
Open Scope Z_scope.

(** ** Where an id can occur *)
Definition special (a : ascii) : bool :=
  Ascii.eqb a "&" || Ascii.eqb a "<" || Ascii.eqb a ">" || Ascii.eqb a """" || Ascii.eqb a "010".
Fixpoint no_special (s : string) : bool := match s with EmptyString => true | String a r => negb (special a) && no_special r end.
Lemma escape_plain : forall q a s, special a = false -> escape q (String a s) = String a (escape q s).
Proof.
  intros q a s H. unfold special in H. cbn [escape]. repeat (apply orb_false_iff in H; destruct H as (H & ?)).
  rewrite H. repeat match goal with E : Ascii.eqb a _ = false |- _ => rewrite E; clear E end. rewrite !andb_false_r. reflexivity.
Qed.
Lemma escape_special : forall q a s, special a = true -> escape q (String a s) = String a (escape q s) \/
  exists e, escape q (String a s) = String "&" e ++ String ";" (escape q s) /\ forall p, lacks (String "&" e) (pt_id p).
Proof.
  intros q a s _. cbn [escape].
  assert (X : forall e, idlike (String "&" e) = false ->
    exists e', (String "&" e ++ ";") ++ escape q s = String "&" e' ++ String ";" (escape q s) /\ forall p, lacks (String "&" e') (pt_id p)).
  { intros e L. exists e. split; [rewrite sapp_assoc; reflexivity|intros p; apply idlike_lacks; exact L]. }
  destruct (Ascii.eqb a "&"); [right; exact (X "amp" eq_refl)|]. destruct (Ascii.eqb a "<"); [right; exact (X "lt" eq_refl)|].
  destruct (Ascii.eqb a ">"); [right; exact (X "gt" eq_refl)|].
  destruct (q && Ascii.eqb a """"); [right; exact (X "quot" eq_refl)|]. destruct (q && Ascii.eqb a "010"); [right; exact (X "#10" eq_refl)|].
  left. reflexivity.
Qed.
Lemma starts_escape : forall w q s, no_special w = true -> starts_with w (escape q s) = starts_with w s.
Proof.
  intros w q. induction w as [|b w IH]; intros s N; [destruct s; reflexivity|]. cbn [no_special] in N. apply andb_prop in N. destruct N as (N1 & N2).
  apply negb_true_iff in N1. destruct s as [|a s]; [reflexivity|]. destruct (special a) eqn:A.
  - assert (AB : Ascii.eqb b a = false) by (destruct (Ascii.eqb_spec b a); [congruence|reflexivity]).
    cbn [starts_with]. rewrite AB. cbn [andb]. destruct (escape_special q a s A) as [-> |(e & -> & _)]; cbn [append starts_with].
    + rewrite AB. reflexivity.
    + destruct (Ascii.eqb_spec b "&"); [subst b; discriminate|reflexivity].
  - rewrite escape_plain by exact A. cbn [starts_with]. rewrite IH by exact N2. reflexivity.
Qed.
Lemma idc_special : forall s, all_idc s = true -> no_special s = true.
Proof.
  intros s. induction s as [|a s IH]; [reflexivity|]. cbn [all_idc no_special]. intros H. apply andb_prop in H. destruct H as (H1 & H2).
  rewrite IH by exact H2. rewrite andb_true_r. apply negb_true_iff. unfold special.
  destruct (Ascii.eqb_spec a "&"); [subst; discriminate|]. destruct (Ascii.eqb_spec a "<"); [subst; discriminate|].
  destruct (Ascii.eqb_spec a ">"); [subst; discriminate|]. destruct (Ascii.eqb_spec a """"); [subst; discriminate|].
  destruct (Ascii.eqb_spec a "010"); [subst; discriminate|]. reflexivity.
Qed.
Lemma escape_lacks : forall p q s, lacks s (pt_id p) -> lacks (escape q s) (pt_id p).
Proof.
  intros p q s L. induction s as [|a s IH]; [exact L|].
  assert (L' : lacks s (pt_id p)) by (apply (lacks_app_r _ (String a "") s); exact L). specialize (IH L').
  assert (S : starts_with (pt_id p) (String a s) = false).
  { destruct (starts_with (pt_id p) (String a s)) eqn:E; [|reflexivity]. apply starts_exists in E. destruct E as (b & E).
    elim L. exists "", b. exact E. }
  assert (PLAIN : lacks (String a (escape q s)) (pt_id p)).
  { apply lacks_step; [|exact IH]. rewrite <- S. unfold pt_id. cbn [append starts_with].
    rewrite starts_escape by (apply idc_special; apply print_idc). reflexivity. }
  destruct (special a) eqn:A; [|rewrite escape_plain by exact A; exact PLAIN].
  destruct (escape_special q a s A) as [-> |(e & -> & E)]; [exact PLAIN|].
  sep ";"%char; [apply E|exact IH].
Qed.
Lemma id_app : forall p d s1 R, idc d = false -> d <> "p"%char -> lacks s1 (pt_id p) -> lacks (String d R) (pt_id p) -> lacks (s1 ++ String d R) (pt_id p).
Proof. intros p d s1 R I N L1 L2. apply id_mid; auto. apply (lacks_app_r _ (String d "") R). exact L2. Qed.
Lemma attrs_lacks : forall p a, Forall (fun kv => lacks (fst kv) (pt_id p) /\ lacks (snd kv) (pt_id p)) a -> lacks (write_attrs a) (pt_id p).
Proof.
  intros p a F. induction a as [|(k, v) a IH]; [apply lacks_nil; discriminate|]. inversion F as [|? ? (K & V) Fa]; subst. cbn [fst snd] in K, V.
  cbn [write_attrs fold_right]. change (fold_right _ "" a) with (write_attrs a). unfold write_attr. cbn [fst snd].
  change (lacks (("" ++ String " " (k ++ String "=" (String """" (escape true v ++ """")))) ++ write_attrs a) (pt_id p)).
  replace (("" ++ String " " (k ++ String "=" (String """" (escape true v ++ """")))) ++ write_attrs a)
    with ("" ++ String " " (k ++ String "=" ("" ++ String """" (escape true v ++ String """" (write_attrs a))))) by (sassoc; reflexivity).
  sep " "%char; [apply lacks_nil; discriminate|]. sep "="%char; [exact K|]. sep """"%char; [apply lacks_nil; discriminate|].
  sep """"%char; [apply escape_lacks; exact V|apply IH; exact Fa].
Qed.
Lemma open_lacks : forall p t a R, lacks t (pt_id p) -> Forall (fun kv => lacks (fst kv) (pt_id p) /\ lacks (snd kv) (pt_id p)) a ->
  lacks R (pt_id p) -> (exists d R', R = String d R' /\ (d = " "%char \/ d = ">"%char)) -> lacks (t ++ write_attrs a ++ R) (pt_id p).
Proof.
  intros p t a R T A L (d & R' & -> & D). pose proof (attrs_lacks p a A) as W.
  assert (I : idc d = false /\ d <> "p"%char) by (destruct D as [-> | ->]; split; (reflexivity || discriminate)).
  assert (X : lacks (write_attrs a ++ String d R') (pt_id p)) by (apply id_app; tauto).
  destruct (attrs_shape a) as [E|(r & E)]; rewrite E in X |- *; cbn [append] in X |- *.
  - apply id_app; tauto.
  - apply id_app; [reflexivity|discriminate|exact T|exact X].
Qed.
Lemma kids_lacks : forall p k, Forall (fun y => lacks (write_xml y) (pt_id p)) k -> lacks (write_kids k) (pt_id p).
Proof.
  intros p k F. induction k as [|y k IH]; [apply lacks_nil; discriminate|]. inversion F as [|? ? F1 F2]; subst.
  cbn [write_kids fold_right]. change (fold_right _ "" k) with (write_kids k). specialize (IH F2).
  destruct k as [|z k]; [cbn [write_kids fold_right]; rewrite sapp_nil; exact F1|].
  assert (E : exists r, write_kids (z :: k) = String "<" r) by (destruct z; eexists; reflexivity).
  destruct E as (r & E). rewrite E in *. apply id_app; [reflexivity|discriminate|exact F1|exact IH].
Qed.
Lemma unmentioned_lacks : forall p x, unmentioned (pt_id p) x -> lacks (write_xml x) (pt_id p).
Proof.
  intros p x. induction x as [t a s k IH] using xml_ind2. intros ((T & A & S) & K). apply all_kids in K.
  assert (WK : lacks (write_kids k) (pt_id p)).
  { apply kids_lacks. rewrite Forall_forall in *. intros y Y. apply IH; [exact Y|exact (K y Y)]. }
  cbn [write_xml]. change (fold_right _ "" k) with (write_kids k). unfold write_elem. rewrite sapp_assoc.
  match goal with |- lacks ("<" ++ ?R) _ => change ("<" ++ R) with ("" ++ String "<" R) end. sep "<"%char; [apply lacks_nil; discriminate|].
  apply open_lacks; [exact T|exact A| |].
  - destruct (_ && _); [apply idlike_lacks; reflexivity|].
    change (lacks ("" ++ String ">" (escape false s ++ write_kids k ++ String "<" (String "/" (t ++ ">")))) (pt_id p)).
    sep ">"%char; [apply lacks_nil; discriminate|].
    assert (E : lacks (write_kids k ++ String "<" (String "/" (t ++ ">"))) (pt_id p)).
    { apply id_app; [reflexivity|discriminate|exact WK|]. apply (id_mid p "<" "" (String "/" (t ++ ">"))); [reflexivity|discriminate|apply lacks_nil; discriminate|].
      apply (id_mid p "/" "" (t ++ ">")); [reflexivity|discriminate|apply lacks_nil; discriminate|].
      sep ">"%char; [exact T|apply lacks_nil; discriminate]. }
    assert (F : exists r, write_kids k ++ String "<" (String "/" (t ++ ">")) = String "<" r).
    { destruct k as [|z k]; [eexists; reflexivity|]. destruct z. eexists. reflexivity. }
    destruct F as (r & F). rewrite F in *. apply id_app; [reflexivity|discriminate|apply escape_lacks; exact S|exact E].
  - destruct (_ && _); eexists; eexists; (split; [reflexivity|]); auto.
Qed.

(** ** The children as periods and text between them *)
Definition nr_of (y : xml) : Z :=
  match x_attrs y with (_, String _ v) :: _ => match py_int v with Ok z => z | Err _ => 0 end | _ => 0 end.
Fixpoint cut (k : list xml) (tail : string) : string * list ptext :=
  match k with
  | [] => (tail, [])
  | y :: r =>
      let '(h, l) := cut r tail in
      if is_tag "Period" y then ("", mk_ptext (nr_of y) (write_attrs (List.tl (x_attrs y))) (content y) h :: l)
      else (write_xml y ++ h, l)
  end.
Definition child_ok (y : xml) : Prop := (x_tag y = "Period" -> period_ready y) /\ (x_tag y <> "Period" -> nameless "Period" y).
Lemma ready_nr : forall n a s k, nr_of (Elem "Period" (("id", "p" ++ print_Z n) :: a) s k) = n.
Proof. intros n a s k. unfold nr_of. cbn [x_attrs append]. rewrite py_int_print. reflexivity. Qed.
Lemma ready_id : forall n a s k, get "id" (Elem "Period" (("id", "p" ++ print_Z n) :: a) s k) = Some ("p" ++ print_Z n).
Proof. reflexivity. Qed.
Lemma ready_text : forall y h, period_ready y -> write_xml y = pt_text (mk_ptext (nr_of y) (write_attrs (List.tl (x_attrs y))) (content y) h).
Proof.
  intros y h (n & a & s & k & -> & E & _). rewrite ready_nr. unfold pt_text, pt_tag, pt_id, content.
  cbn [pt_nr pt_attrs pt_body x_attrs x_text x_kids List.tl write_xml]. change (fold_right _ "" k) with (write_kids k). unfold write_elem.
  assert (B : (s =? "")%string && match k with [] => true | _ => false end = false).
  { destruct E as [E|E]; [destruct (String.eqb_spec s ""); [contradiction|reflexivity]|]. destruct k; [contradiction|]. apply andb_false_r. }
  rewrite B. cbn [write_attrs fold_right]. change (fold_right _ "" a) with (write_attrs a). unfold write_attr. cbn [fst snd].
  assert (X : escape true ("p" ++ print_Z n) = "p" ++ print_Z n).
  { assert (Y : forall w, no_special w = true -> escape true w = w).
    { intros w. induction w as [|b w IH]; intros N; [reflexivity|]. cbn [no_special] in N. apply andb_prop in N. destruct N as (N1 & N2).
      rewrite escape_plain by (apply negb_true_iff; exact N1). rewrite IH by exact N2. reflexivity. }
    apply Y. cbn [append no_special]. change (special "p") with false. cbn [negb andb]. apply idc_special. apply print_idc. }
  rewrite X. sassoc. reflexivity.
Qed.
Lemma cut_text : forall k tail, Forall child_ok k -> fst (cut k tail) ++ periods_text (snd (cut k tail)) = write_kids k ++ tail.
Proof.
  intros k tail F. induction k as [|y k IH]; [cbn; apply sapp_nil|]. inversion F as [|? ? (F1 & F2) Fk]; subst. specialize (IH Fk).
  cbn [cut]. destruct (cut k tail) as (h, l). cbn [fst snd] in IH. cbn [write_kids fold_right]. change (fold_right _ "" k) with (write_kids k).
  rewrite sapp_assoc, <- IH. unfold is_tag. destruct (String.eqb_spec (x_tag y) "Period") as [T|T]; cbn [fst snd periods_text append].
  - rewrite <- (ready_text y h (F1 T)). reflexivity.
  - rewrite sapp_assoc. reflexivity.
Qed.
Lemma cut_ids : forall k tail, Forall child_ok k -> ids_of k = Ok (map pt_id (snd (cut k tail))).
Proof.
  intros k tail F. induction k as [|y k IH]; [reflexivity|]. inversion F as [|? ? (F1 & F2) Fk]; subst. specialize (IH Fk).
  cbn [cut ids_of]. destruct (cut k tail) as (h, l). cbn [snd] in IH. unfold is_tag. destruct (String.eqb_spec (x_tag y) "Period") as [T|T].
  - destruct (F1 T) as (n & a & s & c & -> & _). rewrite ready_id, IH, ready_nr. reflexivity.
  - exact IH.
Qed.
(** the delivered children *)
Fixpoint out_kids (ad k : Z) (base filename : string) (seen : bool) (kids : list xml) : list string :=
  match kids with
  | [] => []
  | y :: r =>
      if is_tag "Period" y then
        let ch := nr_of y mod k =? 0 in
        (if ch && (negb (0 <? ad) || seen) then link_text ad base filename (nr_of y) y
         else if 0 <? ad then asset_text y else write_xml y) :: out_kids ad k base filename (seen || ch) r
      else write_xml y :: out_kids ad k base filename seen r
  end.
Lemma ready_asset : forall y h, period_ready y -> pt_asset (mk_ptext (nr_of y) (write_attrs (List.tl (x_attrs y))) (content y) h) = asset_text y.
Proof.
  intros y h P. pose proof (ready_text y h P) as T. destruct P as (n & a & s & k & -> & E & _). rewrite ready_nr in *.
  unfold pt_asset, asset_text, pt_tag, pt_id. cbn [pt_nr pt_attrs pt_body x_attrs List.tl] in *.
  cbn [write_attrs fold_right]. change (fold_right _ "" a) with (write_attrs a). unfold write_attr. cbn [fst snd].
  assert (X : escape true ("p" ++ print_Z n) = "p" ++ print_Z n).
  { assert (Y : forall w, no_special w = true -> escape true w = w).
    { intros w. induction w as [|b w IH]; intros N; [reflexivity|]. cbn [no_special] in N. apply andb_prop in N. destruct N as (N1 & N2).
      rewrite escape_plain by (apply negb_true_iff; exact N1). rewrite IH by exact N2. reflexivity. }
    apply Y. cbn [append no_special]. change (special "p") with false. cbn [negb andb]. apply idc_special. apply print_idc. }
  rewrite X. sassoc. reflexivity.
Qed.
Lemma cut_out : forall ad m base filename k tail seen, Forall child_ok k ->
  fst (cut k tail) ++ weave (outs_of ad m base filename seen (snd (cut k tail))) (snd (cut k tail))
  = fold_right append "" (out_kids ad m base filename seen k) ++ tail.
Proof.
  intros ad m base filename k tail. induction k as [|y k IH]; intros seen F; [cbn; apply sapp_nil|].
  inversion F as [|? ? (F1 & F2) Fk]; subst. specialize (fun s => IH s Fk).
  cbn [cut out_kids]. destruct (cut k tail) as (h, l). cbn [fst snd] in IH.
  unfold is_tag. destruct (String.eqb_spec (x_tag y) "Period") as [T|T]; cbn [fst snd fold_right].
  - cbn [outs_of weave append pt_gap]. cbn [pt_nr]. rewrite sapp_assoc, <- IH.
    rewrite (ready_asset y h (F1 T)), <- (ready_text y h (F1 T)).
    destruct (_ && _); [|reflexivity]. unfold link_text, pt_link, remote, pt_id. cbn [pt_nr pt_body]. reflexivity.
  - rewrite !sapp_assoc, <- IH. reflexivity.
Qed.
