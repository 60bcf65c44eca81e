(** A URL without options that read the clock gives the same session at all
    times, up to the publish time. *)
From Coq Require Import ZifyBool ZifyNat.
From Verif Require Import Base BaseProofs ConfigModel ConfigProofs.
Open Scope Z_scope.

(** Options whose effect depends on the moment of the request. *)
Definition clock_keys : list string := ["startrel"; "stoprel"; "dur"; "modulo"; "tfdt"; "cont"]%string.
Definition clock_free (part : string) : Prop :=
  forall k v, split_first "_" part = Some (k, v) -> ~ In k clock_keys.

Definition calm (u : ustate) : Prop := u_durs u = [] /\ u_cont u = false /\ u_mod u = None /\ c_tfdt32 (u_cfg u) = false.

Lemma calm_init : forall b, calm (ustate_init b).
Proof. intros b. repeat split. Qed.
Lemma calm_int : forall s f u u', (forall z c, c_tfdt32 (f z c) = c_tfdt32 c) -> calm u -> int_opt s f u = Ok u' -> calm u'.
Proof.
  intros s f u u' F (A & B & C & D) H. unfold int_opt in H. destruct (py_int s); [|discriminate].
  injection H as <-. repeat split; auto. cbn [u_setcfg u_cfg]. rewrite F. exact D.
Qed.
Lemma calm_flag : forall s f u u', (forall c, c_tfdt32 (f c) = c_tfdt32 c) -> calm u -> flag_opt s f u = Ok u' -> calm u'.
Proof.
  intros s f u u' F (A & B & C & D) H. unfold flag_opt in H. destruct (py_int s); [|discriminate].
  injection H as <-. destruct (_ =? _); repeat split; auto. cbn [u_setcfg u_cfg]. rewrite F. exact D.
Qed.
Lemma calm_set : forall f u, (forall c, c_tfdt32 (f c) = c_tfdt32 c) -> calm u -> calm (u_setcfg f u).
Proof.
  intros f u F (A & B & C & D). repeat split; auto. cbn [u_setcfg u_cfg]. rewrite F. exact D.
Qed.

Lemma url_option_clock : forall now1 now2 k v u u', ~ In k clock_keys -> calm u -> url_option now1 k v u = Ok u' ->
  url_option now2 k v u = Ok u' /\ calm u'.
Proof.
  intros now1 now2 k v u u' N C H. unfold clock_keys in N. cbn [In] in N.
  unfold url_option in *.
  assert (R : forall b (x : string), (k =? x)%string = b -> b = true -> k = x) by (intros b x E ->; apply String.eqb_eq; exact E).
  destruct (k =? "startrel")%string eqn:E1; [apply String.eqb_eq in E1; subst; exfalso; apply N; auto|].
  destruct (k =? "stoprel")%string eqn:E2; [apply String.eqb_eq in E2; subst; exfalso; apply N; auto|].
  destruct (k =? "dur")%string eqn:E3; [apply String.eqb_eq in E3; subst; exfalso; apply N; auto|].
  destruct (k =? "modulo")%string eqn:E4; [apply String.eqb_eq in E4; subst; exfalso; apply N; auto 6|].
  destruct (k =? "tfdt")%string eqn:E5; [apply String.eqb_eq in E5; subst; exfalso; apply N; auto 7|].
  destruct (k =? "cont")%string eqn:E6; [apply String.eqb_eq in E6; subst; exfalso; apply N; auto 8|].
  clear E1 E2 E3 E4 E5 E6 R.
  split; [exact H|].
  repeat match type of H with
  | (if (?b || ?b')%bool then _ else _) = _ => destruct (b || b')%bool
  | (if ?b then _ else _) = _ => destruct b
  | int_opt _ _ _ = _ => eapply calm_int; [|exact C|exact H]; intros ? []; reflexivity
  | flag_opt _ _ _ = _ => eapply calm_flag; [|exact C|exact H]; intros []; reflexivity
  | Ok (u_setcfg _ _) = _ => injection H as <-; apply calm_set; [intros []; reflexivity|exact C]
  | Ok _ = _ => injection H as <-; exact C
  | bind ?x _ = _ => destruct x; cbn [bind] in H; [|discriminate]
  | match ?x with Ok _ => _ | Err _ => _ end = _ => destruct x
  | Err _ = _ => discriminate
  end; try (injection H as <-; destruct C as (? & ? & ? & ?); repeat split; assumption);
  try (injection H as <-; apply calm_set; [intros []; reflexivity|exact C]).
Qed.

Lemma url_loop_clock : forall now1 now2 parts u pos u' pos', Forall clock_free parts -> calm u ->
  url_loop now1 parts u pos = Ok (u', pos') -> url_loop now2 parts u pos = Ok (u', pos') /\ calm u'.
Proof.
  intros now1 now2 parts. induction parts as [|p parts IH]; intros u pos u' pos' F C H.
  - cbn in *. injection H as <- <-. auto.
  - inversion F as [|? ? F1 F2]; subst. cbn [url_loop] in *.
    destruct (split_first "_" p) as [(k, v)|] eqn:E.
    + destruct (str_in k url_cfg_keys); [|injection H as <- <-; auto].
      destruct (url_option now1 k v u) as [w|] eqn:W; cbn [bind] in H; [|discriminate].
      destruct (url_option_clock now1 now2 k v u w (F1 k v E) C W) as (W2 & C2).
      rewrite W2. cbn [bind]. apply IH; auto.
    + destruct (str_in p url_cfg_keys); [discriminate|]. injection H as <- <-. auto.
Qed.

Lemma publish_clock : forall now1 now2 c c1, update_publish_time now1 c = Ok c1 ->
  exists p, update_publish_time now2 c = Ok (set_publish_time p c1).
Proof.
  intros now1 now2 c c1 H. unfold update_publish_time in *. destruct (c_ast c =? 0).
  - injection H as <-. exists 0%Q. destruct c; reflexivity.
  - destruct (c_mup c); [|discriminate]. unfold quantizeQ in *. destruct (Qeq_bool q 0); [discriminate|]. cbn [bind] in *.
    injection H as <-. eexists. destruct c; reflexivity.
Qed.

Lemma finish_clock : forall now1 now2 parts pos v u c1, calm u -> finish_url now1 parts pos v u = Ok c1 ->
  exists p, finish_url now2 parts pos v u = Ok (set_publish_time p c1).
Proof.
  intros now1 now2 parts pos v u c1 (A & B & C & D) H. unfold finish_url in *.
  destruct (update_with_reps (u_cfg u) v parts pos) as [c|] eqn:E; cbn [bind] in *; [|discriminate].
  assert (T : c_tfdt32 (update_with_vodcfg c v) = false).
  { unfold update_with_reps in E. destruct (Nat.ltb _ _).
    - destruct (py_nth _ _); cbn [bind] in E; [|discriminate]. destruct (lookup_reps _ _); cbn [bind] in E; [|discriminate].
      injection E as <-. unfold update_with_vodcfg. destruct (u_cfg u). cbn in *. destruct c_tsbd; cbn; exact D.
    - injection E as <-. unfold update_with_vodcfg. destruct (u_cfg u). cbn in *. destruct c_tsbd; cbn; exact D. }
  remember (update_with_vodcfg c v) as c0 eqn:E0. clear E0 E c.
  rewrite A, B, C in *.
  assert (S : exists c2, (match u_start u with None => Ok c0 | Some s => process_start_time s [] now1 (u_stop u) c0 end) = Ok c2 /\
              (match u_start u with None => Ok c0 | Some s => process_start_time s [] now2 (u_stop u) c0 end) = Ok c2 /\ c_tfdt32 c2 = false).
  { destruct (u_start u) as [s|]; [|eauto]. unfold process_start_time in *.
    destruct (quantize s (c_seg_dur c0)) as [a|]; cbn [bind] in *; [|discriminate].
    assert (G : c_tfdt32 (match c_mup (set_start_time (Some a) (set_ast a c0)) with
        | Some _ => set_start_time (Some a) (set_ast a c0)
        | None => set_mup (Some (inject_Z 10)) (set_start_time (Some a) (set_ast a c0)) end) = false).
    { clear H. destruct c0. cbn in *. destruct c_mup; cbn; exact T. }
    remember (match c_mup (set_start_time (Some a) (set_ast a c0)) with
        | Some _ => set_start_time (Some a) (set_ast a c0)
        | None => set_mup (Some (inject_Z 10)) (set_start_time (Some a) (set_ast a c0)) end) as c2 eqn:E2. clear E2.
    destruct (u_stop u) as [st|].
    - destruct (quantize _ (c_seg_dur c0)) as [z|]; cbn [bind] in *; [|discriminate].
      eexists. split; [reflexivity|]. split; [reflexivity|]. clear H. destruct c2. cbn in *. exact G.
    - eauto. }
  destruct S as (c2 & S1 & S2 & S3). rewrite S1 in H. rewrite S2. cbn [bind] in *. rewrite S3 in *. cbn [bind] in *.
  destruct (update_publish_time now1 c2) as [c3|] eqn:P; cbn [bind] in H; [|discriminate].
  destruct (publish_clock now1 now2 c2 c3 P) as (p & P2). rewrite P2. cbn [bind].
  exists p. injection H as <-. clear. destruct (u_toff u), (u_addloc u); destruct c3; reflexivity.
Qed.

Lemma process_url_clock : forall read base parts now1 now2 c1, Forall clock_free parts ->
  process_url read base parts now1 = Ok c1 ->
  exists p, process_url read base parts now2 = Ok (set_publish_time p c1).
Proof.
  intros read base parts now1 now2 c1 F H. unfold process_url in *.
  destruct (url_loop now1 parts (ustate_init base) 0) as [(u, pos)|] eqn:E; cbn [bind] in H; [|discriminate].
  destruct (url_loop_clock now1 now2 parts _ _ _ _ F (calm_init base) E) as (E2 & C).
  rewrite E2. cbn [bind].
  destruct (update_with_filedata (u_cfg u) parts pos) as [c|] eqn:E3; cbn [bind] in *; [|discriminate].
  destruct (read (c_content_name c)); cbn [bind] in *; [|discriminate].
  eapply finish_clock; [|exact H].
  destruct C as (C1 & C2 & C3 & C4). repeat split; auto. cbn [u_setcfg u_cfg].
  unfold update_with_filedata in E3. destruct (py_nth parts pos); cbn [bind] in E3; [|discriminate].
  destruct (py_last parts); cbn [bind] in E3; [|discriminate]. injection E3 as <-. destruct (u_cfg u). cbn in *. exact C4.
Qed.
