(** Templates, paths and file names. *)
From Coq Require Import ZifyBool ZifyNat.
From Verif Require Import Base BaseProofs BytesModel StrModel ConfigModel MpdModel VodModel SourceModel XlinkProofs Mpd2Spec SourceSpec.
Local Open Scope string_scope.
Open Scope Z_scope.

Definition lacks_c := SourceSpec.lacks_char.
Lemma lacks_c_app : forall c a b, lacks_c c (a ++ b) <-> lacks_c c a /\ lacks_c c b.
Proof.
  intros c a b. unfold lacks_c, SourceSpec.lacks_char. induction a as [|x a IH]; cbn [append list_ascii_of_string In]; [tauto|].
  split.
  - intros H. split; [intros [E | I]; [tauto|]|]; tauto.
  - intros (H1 & H2) [E | I]; tauto.
Qed.
Lemma lacks_c_cons : forall c x a, lacks_c c (String x a) <-> x <> c /\ lacks_c c a.
Proof. intros c x a. unfold lacks_c, SourceSpec.lacks_char. cbn [list_ascii_of_string In]. tauto. Qed.
Lemma lacks_c_has : forall c s, lacks_c c s -> has c s = false.
Proof.
  intros c s. induction s as [|x s IH]; [reflexivity|]. intros H. apply lacks_c_cons in H. destruct H as (N & H). cbn [has].
  destruct (Ascii.eqb_spec c x); [congruence|]. cbn [orb]. auto.
Qed.

(** ** Replacing identifiers *)
Lemma replace_text : forall old new s t, lacks_c "$" s -> replace_skip ("$" ++ old) new (s ++ t) 0 = s ++ replace_skip ("$" ++ old) new t 0.
Proof.
  intros old new s t. induction s as [|x s IH]; [reflexivity|]. intros H. apply lacks_c_cons in H. destruct H as (N & H).
  cbn [append]. rewrite replace_step; [f_equal; apply IH; exact H|]. cbn [append starts_with].
  destruct (Ascii.eqb_spec "$" x); [congruence|reflexivity].
Qed.
Lemma starts_word : forall k s r, lacks_c "$" k -> lacks_c "$" s -> starts_with (k ++ "$") (s ++ "$" ++ r) = true -> k = s.
Proof.
  intros k. induction k as [|a k IH]; intros s r Hk Hs H.
  - destruct s as [|b s]; [reflexivity|]. apply lacks_c_cons in Hs. cbn [append starts_with] in H. apply andb_prop in H.
    destruct H as (H & _). apply Ascii.eqb_eq in H. destruct Hs. congruence.
  - apply lacks_c_cons in Hk. destruct s as [|b s].
    + cbn [append starts_with] in H. apply andb_prop in H. destruct H as (H & _). apply Ascii.eqb_eq in H. destruct Hk. congruence.
    + apply lacks_c_cons in Hs. cbn [append starts_with] in H. apply andb_prop in H. destruct H as (H & K). apply Ascii.eqb_eq in H.
      subst b. f_equal. apply (IH s r); tauto.
Qed.
Lemma starts_end : forall k s, lacks_c "$" s -> starts_with (k ++ "$") s = false.
Proof.
  intros k. induction k as [|a k IH]; intros s H.
  - destruct s as [|b s]; [reflexivity|]. apply lacks_c_cons in H. cbn [append starts_with]. destruct (Ascii.eqb_spec "$" b); [destruct H; congruence|reflexivity].
  - destruct s as [|b s]; [reflexivity|]. apply lacks_c_cons in H. cbn [append starts_with]. rewrite IH by tauto. apply andb_false_r.
Qed.
Definition dollars (k : string) : string := "$" ++ k ++ "$".
Lemma fill_start : forall f l, (forall k, f k = dollars k \/ lacks_c "$" (f k)) ->
  Forall (fun p => f (fst p) = dollars (fst p)) l -> fill f l = "" \/ exists r, fill f l = "$" ++ r.
Proof.
  intros f l _ H. destruct l as [|(k, t) l]; [left; reflexivity|right]. inversion H; subst. cbn [fst] in H2. cbn [fill]. rewrite H2.
  unfold dollars. eexists. rewrite !sapp_assoc. reflexivity.
Qed.
Lemma dollars_cons : forall k, dollars k = String "$" (k ++ "$").
Proof. reflexivity. Qed.
Lemma dollars_app : forall k, dollars k = "$" ++ (k ++ "$").
Proof. reflexivity. Qed.
Lemma replace_this : forall k v r, replace_skip (dollars k) v (dollars k ++ r) 0 = v ++ replace_skip (dollars k) v r 0.
Proof. intros k v r. rewrite dollars_cons. apply replace_here. Qed.
Lemma replace_plain : forall k v s t, lacks_c "$" s -> replace_skip (dollars k) v (s ++ t) 0 = s ++ replace_skip (dollars k) v t 0.
Proof. intros k v s t H. rewrite dollars_app. apply replace_text. exact H. Qed.
Lemma replace_other : forall k v i r, lacks_c "$" k -> lacks_c "$" i -> i <> k -> starts_with (k ++ "$") r = false ->
  replace_skip (dollars k) v (dollars i ++ r) 0 = dollars i ++ replace_skip (dollars k) v r 0.
Proof.
  intros k v i r Hk Hi N S.
  assert (E1 : dollars i ++ r = String "$" (i ++ String "$" r)) by (unfold dollars; rewrite !sapp_assoc; reflexivity).
  assert (E2 : dollars i ++ replace_skip (dollars k) v r 0 = String "$" (i ++ String "$" (replace_skip (dollars k) v r 0)))
    by (unfold dollars at 1; rewrite !sapp_assoc; reflexivity).
  rewrite E1, E2. rewrite replace_step.
  2:{ rewrite dollars_cons. cbn [starts_with]. rewrite Ascii.eqb_refl. cbn [andb].
      destruct (starts_with (k ++ "$") (i ++ String "$" r)) eqn:T; [|reflexivity]. exfalso. apply N. symmetry. apply (starts_word k i r Hk Hi T). }
  f_equal. rewrite replace_plain by exact Hi. f_equal. rewrite replace_step; [reflexivity|].
  rewrite dollars_cons. cbn [starts_with]. rewrite Ascii.eqb_refl. exact S.
Qed.
(** One pass: the identifier [k] is replaced, the others stay. *)
Lemma replace_fill : forall k v l, lacks_c "$" k ->
  Forall (fun p => lacks_c "$" (fst p) /\ lacks_c "$" (snd p) /\ snd p <> k) l ->
  replace_skip (dollars k) v (fill dollars l) 0 = fill (fun i => if String.eqb i k then v else dollars i) l.
Proof.
  intros k v l Hk. induction l as [|(i, t) l IH]; intros H; [reflexivity|]. inversion H as [|? ? (Hi & Ht & Nt) Hl]; subst. cbn [fst snd] in *.
  cbn [fill]. destruct (String.eqb_spec i k) as [->|N].
  - rewrite replace_this. f_equal. rewrite replace_plain by exact Ht. f_equal. apply IH. exact Hl.
  - rewrite replace_other; [|exact Hk|exact Hi|exact N|].
    2:{ destruct (starts_with _ _) eqn:S; [|reflexivity]. exfalso. destruct l as [|(i2, t2) l2].
        - cbn [fill] in S. rewrite sapp_nil, starts_end in S by exact Ht. discriminate.
        - cbn [fill] in S. unfold dollars in S. rewrite !sapp_assoc in S. apply starts_word in S; auto. }
    f_equal. rewrite replace_plain by exact Ht. f_equal. apply IH. exact Hl.
Qed.
Lemma replace_template : forall k v s l, lacks_c "$" k -> lacks_c "$" s ->
  Forall (fun p => lacks_c "$" (fst p) /\ lacks_c "$" (snd p) /\ snd p <> k) l ->
  replace_all (dollars k) v (s ++ fill dollars l) = s ++ fill (fun i => if String.eqb i k then v else dollars i) l.
Proof.
  intros k v s l Hk Hs H. unfold replace_all. rewrite replace_plain by exact Hs.
  f_equal. exact (replace_fill k v l Hk H).
Qed.
Lemma replace_no_dollar : forall old new s, lacks_c "$" s -> replace_all ("$" ++ old) new s = s.
Proof.
  intros old new s H. unfold replace_all. rewrite <- (sapp_nil s) at 1. rewrite replace_text by exact H.
  cbn [replace_skip]. apply sapp_nil.
Qed.
Lemma fill_ext : forall f g l, Forall (fun p => f (fst p) = g (fst p)) l -> fill f l = fill g l.
Proof. intros f g l. induction l as [|(k, t) l IH]; intros H; [reflexivity|]. inversion H; subst. cbn [fill fst] in *. rewrite IH by assumption. congruence. Qed.
Lemma fill_app : forall f a b, fill f (a ++ b)%list = fill f a ++ fill f b.
Proof. intros f a b. induction a as [|(k, t) a IH]; [reflexivity|]. cbn [List.app fill]. rewrite IH, !sapp_assoc. reflexivity. Qed.
Lemma fill_lacks : forall c f l, Forall (fun p => lacks_c c (f (fst p)) /\ lacks_c c (snd p)) l -> lacks_c c (fill f l).
Proof.
  intros c f l. induction l as [|(k, t) l IH]; intros H; [intros []|]. inversion H as [|? ? (A & B) C]; subst. cbn [fill fst snd] in *.
  apply lacks_c_app. split; [exact A|]. apply lacks_c_app. split; [exact B|]. apply IH. exact C.
Qed.
Ltac lacks_tac := unfold lacks_c, SourceSpec.lacks_char; cbn; intuition discriminate.
Lemma init_expands : forall t id bw, plain_init t -> lacks_c "$" id ->
  replace_all "$bandwidth$" bw (replace_all "$RepresentationID$" id (written t)) = meant id bw "" t.
Proof.
  intros (s, l) id bw (Hs & Hl) Hid. unfold written, meant. cbn [tm_text tm_parts] in *.
  change (fill (fun k => "$" ++ k ++ "$") l) with (fill dollars l).
  rewrite (replace_template "RepresentationID") by
    (first [lacks_tac|exact Hs|eapply Forall_impl; [|exact Hl]; intros p (E & P1 & P2); rewrite E; split; [lacks_tac|split; assumption]]).
  rewrite (fill_ext _ (identifier id bw "") l).
  2:{ eapply Forall_impl; [|exact Hl]. intros p (E & _). cbn beta. rewrite E. reflexivity. }
  change "$bandwidth$" with ("$" ++ "bandwidth$"). rewrite replace_no_dollar; [reflexivity|].
  apply lacks_c_app. split; [exact Hs|]. apply fill_lacks. eapply Forall_impl; [|exact Hl]. intros p (E & P1 & P2). rewrite E. split; [exact Hid|exact P1].
Qed.
Lemma media_expands : forall t id bw, plain_media t -> lacks_c "$" id ->
  replace_all "$Number$" "%d" (replace_all "$bandwidth$" bw (replace_all "$RepresentationID$" id (written t))) = meant id bw "%d" t.
Proof.
  intros (s, l) id bw (Hs & a & x & b & El & (Hx & Nx) & Ha & Hb) Hid. unfold written, meant. cbn [tm_text tm_parts] in *. subst l.
  change (fill (fun k => "$" ++ k ++ "$")) with (fill dollars).
  assert (G : forall l, Forall (fun p => fst p = "RepresentationID" /\ plain_text (snd p)) l ->
    Forall (fun p : string * string => lacks_c "$" (fst p) /\ lacks_c "$" (snd p) /\ snd p <> "RepresentationID") l).
  { intros l Hl. eapply Forall_impl; [|exact Hl]. intros p (E & P1 & P2). rewrite E. split; [lacks_tac|split; assumption]. }
  rewrite (replace_template "RepresentationID").
  2: lacks_tac. 2: exact Hs.
  2:{ apply Forall_app. split; [apply G; exact Ha|]. constructor; [|apply G; exact Hb]. cbn [fst snd]. split; [lacks_tac|split; assumption]. }
  rewrite !fill_app. cbn [fill].
  change (String.eqb "Number" "RepresentationID") with false. cbv iota.
  assert (K : forall l, Forall (fun p => fst p = "RepresentationID" /\ plain_text (snd p)) l ->
    fill (fun i => if String.eqb i "RepresentationID" then id else dollars i) l = fill (identifier id bw "%d") l /\
    lacks_c "$" (fill (identifier id bw "%d") l)).
  { intros l Hl. split.
    - apply fill_ext. eapply Forall_impl; [|exact Hl]. intros p (E & _). cbn beta. rewrite E. reflexivity.
    - apply fill_lacks. eapply Forall_impl; [|exact Hl]. intros p (E & P1 & P2). rewrite E. split; [exact Hid|exact P1]. }
  destruct (K a Ha) as (-> & La). destruct (K b Hb) as (-> & Lb).
  set (A := fill (identifier id bw "%d") a) in *. set (B := fill (identifier id bw "%d") b) in *.
  change (identifier id bw "%d" "Number") with "%d".
  assert (R2 : forall k v, lacks_c "$" k -> replace_all (dollars k) v ((s ++ A) ++ dollars "Number" ++ (x ++ B)) =
     (s ++ A) ++ (if String.eqb "Number" k then v else dollars "Number") ++ (x ++ B)).
  { assert (LX : lacks_c "$" (x ++ B)) by (apply lacks_c_app; split; assumption).
    intros k v Hk. unfold replace_all. rewrite replace_plain by (apply lacks_c_app; split; assumption).
    assert (E : replace_skip (dollars k) v (x ++ B) 0 = x ++ B).
    { rewrite <- (sapp_nil (x ++ B)) at 1. rewrite replace_plain by exact LX. cbn [replace_skip]. apply sapp_nil. }
    f_equal. destruct (String.eqb_spec "Number" k) as [<-|N].
    - rewrite replace_this, E. reflexivity.
    - rewrite replace_other; [rewrite E; reflexivity|exact Hk|lacks_tac|exact N|]. apply starts_end. exact LX. }
  rewrite <- (sapp_assoc s A). change "$bandwidth$" with (dollars "bandwidth"). rewrite R2 by lacks_tac.
  change (String.eqb "Number" "bandwidth") with false. cbv iota. change "$Number$" with (dollars "Number"). rewrite R2 by lacks_tac.
  rewrite String.eqb_refl. rewrite sapp_assoc. reflexivity.
Qed.
