(** Two replies to one URL. *)
From Coq Require Import Lqa ZifyBool ZifyNat.
From Verif Require Import Base BaseProofs BytesModel BytesProofs StrModel BoxSpec Mp4Model ConfigModel ConfigProofs
  ProxyModel ProxySpec ProxyProofs ProxyTheory MediaModel SegmentModel MuxModel InitModel ChunkModel
  HttpModel HttpSpec HttpProofs HttpTheory EndSpec EndTheory CacheSpec.
Local Open Scope string_scope.
Open Scope Z_scope.

(** ** The session of a URL without moving options *)
(** Another moment: only the publish time and the announced end differ. *)
Definition other (p : Q) (a m : option Q) (c : config) : config := set_publish_time p (set_mpdur m (set_aet a c)).
Definition still (u : ustate) : Prop :=
  u_cont u = false /\ u_mod u = None /\ c_tfdt32 (u_cfg u) = false /\ c_stop_time (u_cfg u) = None.
(** The presentation duration stays when it gives the number of the last segment. *)
Definition same_stop (m : option Q) (c : config) : Prop := c_stop_time c = None \/ m = c_mpdur c.

Lemma still_init : forall b, still (ustate_init b).
Proof. intros b. repeat split. Qed.
Lemma still_int : forall s f u u', (forall z c, c_tfdt32 (f z c) = c_tfdt32 c /\ c_stop_time (f z c) = c_stop_time c) -> still u -> int_opt s f u = Ok u' -> still u'.
Proof.
  intros s f u u' F (B & C & D & E) H. unfold int_opt in H. destruct (py_int s) as [z|]; [|discriminate].
  injection H as <-. destruct (F z (u_cfg u)) as (F1 & F2). repeat split; auto; cbn [u_setcfg u_cfg]; congruence.
Qed.
Lemma still_flag : forall s f u u', (forall c, c_tfdt32 (f c) = c_tfdt32 c /\ c_stop_time (f c) = c_stop_time c) -> still u -> flag_opt s f u = Ok u' -> still u'.
Proof.
  intros s f u u' F (B & C & D & E) H. unfold flag_opt in H. destruct (py_int s); [|discriminate].
  injection H as <-. destruct (F (u_cfg u)) as (F1 & F2). destruct (_ =? _); repeat split; auto; cbn [u_setcfg u_cfg]; congruence.
Qed.
Lemma still_set : forall f u, (forall c, c_tfdt32 (f c) = c_tfdt32 c /\ c_stop_time (f c) = c_stop_time c) -> still u -> still (u_setcfg f u).
Proof.
  intros f u F (B & C & D & E). destruct (F (u_cfg u)) as (F1 & F2). repeat split; auto; cbn [u_setcfg u_cfg]; congruence.
Qed.

Lemma url_option_fixed : forall now1 now2 k v u u', ~ In k moving_keys -> still u -> url_option now1 k v u = Ok u' ->
  url_option now2 k v u = Ok u' /\ still u'.
Proof.
  intros now1 now2 k v u u' N C H. unfold moving_keys in N. cbn [In] in N.
  unfold url_option in *.
  destruct (k =? "startrel")%string eqn:E1; [apply String.eqb_eq in E1; subst; exfalso; apply N; auto|].
  destruct (k =? "stoprel")%string eqn:E2; [apply String.eqb_eq in E2; subst; exfalso; apply N; auto|].
  destruct (k =? "modulo")%string eqn:E4; [apply String.eqb_eq in E4; subst; exfalso; apply N; auto 6|].
  destruct (k =? "tfdt")%string eqn:E5; [apply String.eqb_eq in E5; subst; exfalso; apply N; auto 7|].
  destruct (k =? "cont")%string eqn:E6; [apply String.eqb_eq in E6; subst; exfalso; apply N; auto 8|].
  clear E1 E2 E4 E5 E6.
  split; [exact H|].
  repeat match type of H with
  | (if (?b || ?b')%bool then _ else _) = _ => destruct (b || b')%bool
  | (if ?b then _ else _) = _ => destruct b
  | int_opt _ _ _ = _ => eapply still_int; [|exact C|exact H]; intros ? []; split; reflexivity
  | flag_opt _ _ _ = _ => eapply still_flag; [|exact C|exact H]; intros []; split; reflexivity
  | Ok (u_setcfg _ _) = _ => injection H as <-; apply still_set; [intros []; split; reflexivity|exact C]
  | Ok _ = _ => injection H as <-; exact C
  | bind ?x _ = _ => destruct x; cbn [bind] in H; [|discriminate]
  | match ?x with Ok _ => _ | Err _ => _ end = _ => destruct x
  | Err _ = _ => discriminate
  end; try (injection H as <-; destruct C as (? & ? & ? & ?); repeat split; assumption);
  try (injection H as <-; apply still_set; [intros []; split; reflexivity|exact C]).
Qed.

Lemma split_first_is : forall part k v, split_first "_" part = Some (k, v) -> part = k ++ "_" ++ v.
Proof.
  induction part as [|a part IH]; intros k v H; cbn [split_first] in H; [discriminate|].
  destruct (Ascii.eqb_spec a "_").
  - injection H as <- <-. subst a. reflexivity.
  - destruct (split_first "_" part) as [(x, y)|] eqn:E; [|discriminate]. injection H as <- <-.
    rewrite (IH x y eq_refl). reflexivity.
Qed.
Lemma url_loop_fixed : forall now1 now2 parts u pos u' pos', Forall fixed_part parts -> still u ->
  url_loop now1 parts u pos = Ok (u', pos') -> url_loop now2 parts u pos = Ok (u', pos') /\ still u'.
Proof.
  intros now1 now2 parts. induction parts as [|p parts IH]; intros u pos u' pos' F C H.
  - cbn in *. injection H as <- <-. auto.
  - inversion F as [|? ? F1 F2]; subst. cbn [url_loop] in *.
    destruct (split_first "_" p) as [(k, v)|] eqn:E.
    + destruct (str_in k url_cfg_keys); [|injection H as <- <-; auto].
      destruct (url_option now1 k v u) as [w|] eqn:W; cbn [bind] in H; [|discriminate].
      destruct (url_option_fixed now1 now2 k v u w (F1 k v (split_first_is _ _ _ E)) C W) as (W2 & C2).
      rewrite W2. cbn [bind]. apply IH; auto.
    + destruct (str_in p url_cfg_keys); [discriminate|]. injection H as <- <-. auto.
Qed.
Lemma publish_other : forall now1 now2 a m c c1, update_publish_time now1 c = Ok c1 ->
  exists p, update_publish_time now2 (set_mpdur m (set_aet a c)) = Ok (other p a m c1).
Proof.
  intros now1 now2 a m c c1 H. unfold update_publish_time in *.
  change (c_ast (set_mpdur m (set_aet a c))) with (c_ast c). change (c_mup (set_mpdur m (set_aet a c))) with (c_mup c).
  destruct (c_ast c =? 0).
  - injection H as <-. exists 0%Q. destruct c; reflexivity.
  - destruct (c_mup c); [|discriminate]. unfold quantizeQ in *. destruct (Qeq_bool q 0); [discriminate|]. cbn [bind] in *.
    injection H as <-. eexists. destruct c; reflexivity.
Qed.
Lemma aet_other : forall now1 now2 pairs c c1, update_with_aet now1 pairs c = Ok c1 ->
  exists a m, update_with_aet now2 pairs c = Ok (set_mpdur m (set_aet a c1)) /\ c_tfdt32 c1 = c_tfdt32 c /\ c_stop_time c1 = c_stop_time c.
Proof.
  intros now1 now2 pairs c c1 H. unfold update_with_aet in *. destruct (rev pairs) as [|(la, ld) r].
  - injection H as <-. exists (c_aet c), (c_mpdur c). destruct c; auto.
  - destruct (c_mup c) as [mup|]; [|discriminate].
    destruct (aet_loop now1 mup ((la, ld) :: r) la None) as (e1, d1).
    destruct (aet_loop now2 mup ((la, ld) :: r) la None) as (e2, d2).
    injection H as <-. exists (Some (inject_Z e2)), (option_map inject_Z d2). destruct c; auto.
Qed.
Lemma start_other : forall now1 now2 s durs stop c c1, c_stop_time c = None -> process_start_time s durs now1 stop c = Ok c1 ->
  exists a m, process_start_time s durs now2 stop c = Ok (set_mpdur m (set_aet a c1)) /\ c_tfdt32 c1 = c_tfdt32 c /\ same_stop m c1.
Proof.
  intros now1 now2 s durs stop c c1 NS H. unfold process_start_time in *.
  destruct (quantize s (c_seg_dur c)) as [a|]; cbn [bind] in *; [|discriminate].
  set (c2 := match c_mup (set_start_time (Some a) (set_ast a c)) with
        | Some _ => set_start_time (Some a) (set_ast a c)
        | None => set_mup (Some (inject_Z 10)) (set_start_time (Some a) (set_ast a c)) end) in *.
  assert (T : c_tfdt32 c2 = c_tfdt32 c /\ c_stop_time c2 = None) by (unfold c2; destruct c; cbn in *; destruct c_mup; auto).
  clearbody c2.
  assert (S : exists c3 a2 m2,
    (match durs with [] => Ok c2 | _ =>
        let* pairs := end_times s (c_seg_dur c) durs 0 in
        let* lastp := py_last pairs in
        let* q := py_div (fst lastp - a) (c_seg_dur c) in
        update_with_aet now1 pairs (set_last_nrs (c_last_nrs c2 ++ [inject_Z (q - 1)]) c2) end) = Ok c3 /\
    (match durs with [] => Ok c2 | _ =>
        let* pairs := end_times s (c_seg_dur c) durs 0 in
        let* lastp := py_last pairs in
        let* q := py_div (fst lastp - a) (c_seg_dur c) in
        update_with_aet now2 pairs (set_last_nrs (c_last_nrs c2 ++ [inject_Z (q - 1)]) c2) end) = Ok (set_mpdur m2 (set_aet a2 c3)) /\
    c_tfdt32 c3 = c_tfdt32 c2 /\ c_stop_time c3 = None).
  { destruct durs as [|d durs].
    - exists c2, (c_aet c2), (c_mpdur c2). destruct T as (_ & T). repeat split; auto. destruct c2; reflexivity.
    - destruct (end_times s (c_seg_dur c) (d :: durs) 0) as [pairs|]; cbn [bind] in *; [|discriminate].
      destruct (py_last pairs) as [lp|]; cbn [bind] in *; [|discriminate].
      destruct (py_div (fst lp - a) (c_seg_dur c)) as [q|]; cbn [bind] in *; [|discriminate].
      destruct (update_with_aet now1 pairs (set_last_nrs (c_last_nrs c2 ++ [inject_Z (q - 1)]) c2)) as [c3|] eqn:U; cbn [bind] in *; [|discriminate].
      destruct (aet_other now1 now2 _ _ _ U) as (a2 & m2 & U2 & T2 & T3). exists c3, a2, m2. destruct T as (_ & T). repeat split; auto. rewrite T3. exact T. }
  destruct S as (c3 & a2 & m2 & S1 & S2 & S3 & S4). destruct T as (T & _).
  cbv zeta in H |- *. rewrite S1 in H. rewrite S2. cbn [bind] in *. clear S1 S2.
  destruct stop as [st|].
  - destruct (quantize _ (c_seg_dur c)) as [z|]; cbn [bind] in *; [|discriminate]. injection H as <-.
    exists a2, (Some (inject_Z (z - a))). destruct c3; cbn in *. split; [reflexivity|]. split; [congruence|right; reflexivity].
  - injection H as <-. exists a2, m2. split; [reflexivity|]. split; [congruence|left; exact S4].
Qed.
Lemma finish_other : forall now1 now2 parts pos v u c1, still u -> finish_url now1 parts pos v u = Ok c1 ->
  exists p a m, finish_url now2 parts pos v u = Ok (other p a m c1) /\ same_stop m c1.
Proof.
  intros now1 now2 parts pos v u c1 (B & C & D & D2) H. unfold finish_url in *.
  destruct (update_with_reps (u_cfg u) v parts pos) as [c|] eqn:E; cbn [bind] in *; [|discriminate].
  assert (T : c_tfdt32 (update_with_vodcfg c v) = false /\ c_stop_time (update_with_vodcfg c v) = None).
  { unfold update_with_reps in E. destruct (Nat.ltb _ _).
    - destruct (py_nth _ _); cbn [bind] in E; [|discriminate]. destruct (lookup_reps _ _); cbn [bind] in E; [|discriminate].
      injection E as <-. unfold update_with_vodcfg. destruct (u_cfg u). cbn in *. destruct c_tsbd; cbn; auto.
    - injection E as <-. unfold update_with_vodcfg. destruct (u_cfg u). cbn in *. destruct c_tsbd; cbn; auto. }
  remember (update_with_vodcfg c v) as c0 eqn:E0. clear E0 E c.
  rewrite B, C in *.
  assert (S : exists c2 a m, (match u_start u with None => Ok c0 | Some s => process_start_time s (u_durs u) now1 (u_stop u) c0 end) = Ok c2 /\
              (match u_start u with None => Ok c0 | Some s => process_start_time s (u_durs u) now2 (u_stop u) c0 end) = Ok (set_mpdur m (set_aet a c2)) /\
              c_tfdt32 c2 = false /\ same_stop m c2).
  { destruct (u_start u) as [s|].
    - destruct (process_start_time s (u_durs u) now1 (u_stop u) c0) as [c2|] eqn:P; cbn [bind] in H; [|discriminate].
      destruct (start_other now1 now2 _ _ _ _ _ (proj2 T) P) as (a & m & P2 & T2 & T3). destruct T as (T & _). exists c2, a, m. rewrite P2, T2. auto.
    - destruct T as (T & _). exists c0, (c_aet c0), (c_mpdur c0). repeat split; auto; [destruct c0; reflexivity|right; reflexivity]. }
  destruct S as (c2 & a & m & S1 & S2 & S3 & S4). rewrite S1 in H. rewrite S2. cbn [bind] in *.
  change (c_tfdt32 (set_mpdur m (set_aet a c2))) with (c_tfdt32 c2).
  rewrite S3 in *. cbn [bind] in *.
  destruct (update_publish_time now1 c2) as [c3|] eqn:P; cbn [bind] in H; [|discriminate].
  destruct (publish_other now1 now2 a m c2 c3 P) as (p & P2). rewrite P2. cbn [bind].
  exists p, a, m. injection H as <-. split.
  - clear. destruct (u_toff u), (u_addloc u); destruct c3; reflexivity.
  - assert (SM : same_stop m c3).
    { unfold update_publish_time in P. destruct (c_ast c2 =? 0); [injection P as <-; exact S4|].
      destruct (c_mup c2); [|discriminate]. destruct (quantizeQ now1 q); cbn [bind] in P; [|discriminate]. injection P as <-. exact S4. }
    clear - SM. destruct (u_toff u), (u_addloc u); exact SM.
Qed.
Lemma process_url_other : forall read base parts now1 now2 c1, Forall fixed_part parts ->
  process_url read base parts now1 = Ok c1 ->
  exists p a m, process_url read base parts now2 = Ok (other p a m c1) /\ same_stop m c1.
Proof.
  intros read base parts now1 now2 c1 F H. unfold process_url in *.
  destruct (url_loop now1 parts (ustate_init base) 0) as [(u, pos)|] eqn:E; cbn [bind] in H; [|discriminate].
  destruct (url_loop_fixed now1 now2 parts _ _ _ _ F (still_init base) E) as (E2 & C).
  rewrite E2. cbn [bind].
  destruct (update_with_filedata (u_cfg u) parts pos) as [c|] eqn:E3; cbn [bind] in *; [|discriminate].
  destruct (read (c_content_name c)); cbn [bind] in *; [|discriminate].
  eapply finish_other; [|exact H].
  destruct C as (C2 & C3 & C4 & C5). split; [exact C2|]. split; [exact C3|]. cbn [u_setcfg u_cfg].
  unfold update_with_filedata in E3. destruct (py_nth parts pos); cbn [bind] in E3; [|discriminate].
  destruct (py_last parts); cbn [bind] in E3; [|discriminate]. injection E3 as <-. destruct (u_cfg u). cbn in *. auto.
Qed.
Lemma provider_other : forall s r now1 now2 c, Forall fixed_part (path_parts r) -> provider_config s r now1 = Ok c ->
  exists p a m, provider_config s r now2 = Ok (other p a m c) /\ same_stop m c.
Proof.
  intros s r now1 now2 c F H. unfold provider_config in *.
  destruct (path_parts r) as [|x [|first parts]]; try discriminate.
  inversion F as [|? ? _ F2]; subst. inversion F2 as [|? ? _ F3]; subst. eapply process_url_other; eauto.
Qed.

(** ** What is served *)
Lemma request_other : forall p a m c, request_nr (other p a m c) = request_nr c.
Proof. intros p a m []; reflexivity. Qed.
Lemma stop_other : forall p a m c, same_stop m c -> stop_number (other p a m c) = stop_number c.
Proof.
  intros p a m c [N|E]; unfold stop_number.
  - change (c_stop_time (other p a m c)) with (c_stop_time c). rewrite N. reflexivity.
  - change (c_mpdur (other p a m c)) with m. rewrite E. reflexivity.
Qed.
Lemma segment_same : forall p a m c now1 now2 n s1 s2, same_stop m c -> segment_reply c now1 n = Ok (Serve s1) ->
  segment_reply (other p a m c) now2 n = Ok (Serve s2) -> s1 = s2.
Proof.
  intros p a m c now1 now2 n s1 s2 SS H1 H2. unfold segment_reply in *.
  change (seg_start_nr (other p a m c)) with (seg_start_nr c) in H2.
  rewrite (stop_other p a m c SS) in H2.
  change (adjusted_pto (other p a m c) 0 1) with (adjusted_pto c 0 1) in H2.
  change (loop_position (other p a m c)) with (loop_position c) in H2.
  change (c_last_nrs (other p a m c)) with (c_last_nrs c) in H2.
  change (c_seg_dur (other p a m c)) with (c_seg_dur c) in H2.
  change (c_ast (other p a m c)) with (c_ast c) in H2.
  change (c_emsg_last (other p a m c)) with (c_emsg_last c) in H2.
  change (c_ato (other p a m c)) with (c_ato c) in H2.
  change (c_tsbd (other p a m c)) with (c_tsbd c) in H2.
  destruct (seg_start_nr c) as [s|]; cbn [bind] in *; [|discriminate].
  destruct (n <? s); [discriminate|].
  destruct (stop_number c) as [stop|]; cbn [bind] in *; [|discriminate].
  match type of H1 with (if ?b then _ else _) = _ => destruct b; [discriminate|] end.
  destruct (match c_last_nrs c with [] => Ok false | _ => _ end) as [b|]; cbn [bind] in *; [|discriminate].
  destruct b; [discriminate|].
  destruct (loop_position c ((n - s) * c_seg_dur c + adjusted_pto c 0 1)) as [(vn, off)|]; cbn [bind] in *.
  - match type of H1 with bind ?x _ = _ => destruct x as [[w|]|]; cbn [bind] in H1; try discriminate end.
    match type of H2 with bind ?x _ = _ => destruct x as [[w|]|]; cbn [bind] in H2; try discriminate end.
    congruence.
  - match type of H1 with bind ?x _ = _ => destruct x as [[w|]|]; cbn [bind] in H1; discriminate end.
Qed.
Lemma process_same : forall p a m c now1 now2 s1 s2, same_stop m c -> process_media_segment c now1 = Ok (Serve s1) ->
  process_media_segment (other p a m c) now2 = Ok (Serve s2) -> s1 = s2 /\ c_reps c <> [].
Proof.
  intros p a m c now1 now2 s1 s2 SS H1 H2. unfold process_media_segment in *. rewrite request_other in H2.
  change (c_reps (other p a m c)) with (c_reps c) in H2.
  destruct (request_nr c) as [n|]; cbn [bind] in *; [|discriminate].
  destruct (segment_reply c now1 n) as [[r1|v1]|] eqn:E1; cbn [bind] in *; try discriminate.
  destruct (segment_reply (other p a m c) now2 n) as [[r2|v2]|] eqn:E2; cbn [bind] in *; try discriminate.
  destruct (c_reps c); [discriminate|]. injection H1 as <-. injection H2 as <-. split; [|discriminate].
  eapply segment_same; eauto.
Qed.
Lemma ud_quiet : forall c now m X T is resp, (forall i, In i is -> m <> i * T + X) ->
  ud_loop c now m X T is resp = Ok resp \/ ud_loop c now m X T is resp = Ok (Some (Refuse RServerDown)).
Proof.
  intros c now m X T. induction is as [|i is IH]; intros resp N; cbn [ud_loop]; auto.
  destruct ((i * T + X <? m) && (m <=? (i + 1) * T))%bool; auto.
  destruct (Z.eqb_spec m (i * T + X)) as [E|E]; [exfalso; exact (N i (or_introl eq_refl) E)|].
  apply IH. intros j J. apply N. right. exact J.
Qed.
Lemma m4s_quiet : forall c now sv, quiet c (py_int_of_Q now) -> get_m4s c now = Ok (Serve sv) ->
  process_media_segment c now = Ok (Serve sv).
Proof.
  intros c now sv K H. unfold get_m4s in H. destruct (c_multi_url c) as [|u [|u2 us]] eqn:MU; cbn [bind] in H; auto.
  destruct (parse_updown u) as [[[ca X] [cb Y]]|] eqn:PU; cbn [bind] in H; [|discriminate].
  destruct (X + Y =? 0); cbn [bind] in H; [discriminate|].
  destruct (Ascii.eqb ca "u" && Ascii.eqb cb "d")%bool eqn:UD.
  - apply andb_prop in UD. destruct UD as (U1 & _). apply Ascii.eqb_eq in U1. subst ca.
    assert (HU : exists w, u = "u" ++ w).
    { unfold parse_updown in PU. destruct u as [|a u]; [discriminate|]. cbn [split_all] in PU.
      destruct (Ascii.eqb a "_").
      - destruct (split_all "_" u) as [|b [|? ?]]; discriminate.
      - destruct (split_all "_" u) as [|h [|b [|? ?]]]; try discriminate.
        destruct b; try discriminate. destruct (py_int h); cbn [bind] in PU; [|discriminate].
        destruct (py_int b); cbn [bind] in PU; [|discriminate]. injection PU as -> _ _ _. exists u. reflexivity. }
    destruct HU as (w & ->). specialize (K w MU). inversion K as [NU|X' Y' b MU' HX HY HT LB|X' Y' MU' HX HY HT]; subst.
    + exfalso. exact (NU _ MU).
    + rewrite MU in MU'. assert (E : "u" ++ w = "u" ++ print_Z X' ++ "_d" ++ print_Z Y') by congruence.
      rewrite E in PU. assert (PT := parse_two "u" "d" X' Y' HX HY ltac:(discriminate) ltac:(discriminate)).
      change ("u" ++ print_Z X' ++ "_d" ++ print_Z Y') with (String "u" (print_Z X' ++ String "_" (String "d" (print_Z Y')))) in PU.
      rewrite PT in PU. injection PU as <- <- <-.
      destruct (ud_quiet c now (py_int_of_Q now mod 60) X' (X' + Y') (zrange (nr_updown_loops (X' + Y'))) None) as [Z|Z].
      * intros i I EQ. unfold zrange in I. apply in_map_iff in I. destruct I as (k & <- & _).
        assert (false = true); [|discriminate]. apply LB. exists (Z.of_nat k). lia.
      * rewrite Z in H. cbn [bind] in H. exact H.
      * rewrite Z in H. discriminate.
    + rewrite MU in MU'. discriminate.
  - destruct (Ascii.eqb ca "d" && Ascii.eqb cb "u")%bool; cbn [bind] in H; auto.
    match type of H with match (if ?b then _ else _) with _ => _ end = _ => destruct b; [discriminate|exact H] end.
Qed.
Lemma quiet_other : forall p a m c sec, quiet c sec -> quiet (other p a m c) sec.
Proof.
  intros p a m c sec K u E. change (c_multi_url (other p a m c)) with (c_multi_url c) in E. specialize (K u E).
  inversion K; subst.
  - apply gd_plain. exact H.
  - eapply gd_up_first; eauto.
  - eapply gd_down_first; eauto.
Qed.
Lemma thumbnail_same : forall p a m c now1 now2 n s1 s2, thumbnail_reply c now1 n = Ok (Serve s1) ->
  thumbnail_reply (other p a m c) now2 n = Ok (Serve s2) -> s1 = s2.
Proof.
  intros p a m c now1 now2 n s1 s2 H1 H2. unfold thumbnail_reply in *.
  change (loop_position (other p a m c)) with (loop_position c) in H2.
  change (c_last_nrs (other p a m c)) with (c_last_nrs c) in H2.
  change (c_seg_dur (other p a m c)) with (c_seg_dur c) in H2.
  change (c_start_nr (other p a m c)) with (c_start_nr c) in H2.
  change (c_ast (other p a m c)) with (c_ast c) in H2.
  change (c_ato (other p a m c)) with (c_ato c) in H2.
  change (c_tsbd (other p a m c)) with (c_tsbd c) in H2.
  set (s := if c_start_nr c =? -1 then 1 else c_start_nr c) in *.
  destruct (n <? s); [discriminate|].
  destruct (match c_last_nrs c with [] => Ok false | _ => _ end) as [b|]; cbn [bind] in *; [|discriminate].
  destruct b; [discriminate|].
  match type of H1 with bind ?x _ = _ => destruct x; cbn [bind] in H1; [|discriminate] end.
  match type of H2 with bind ?x _ = _ => destruct x; cbn [bind] in H2; [|discriminate] end.
  destruct (loop_position c _) as [(vn, off)|]; cbn [bind] in *; congruence.
Qed.
Lemma media_same : forall p a m c now1 now2 s1 s2, same_stop m c -> quiet c (py_int_of_Q now1) -> quiet c (py_int_of_Q now2) ->
  get_media c now1 = Ok (Serve s1) -> get_media (other p a m c) now2 = Ok (Serve s2) -> s1 = s2 /\
  (c_ext c = ".m4s" -> sv_emsg s1 = c_emsg_last c).
Proof.
  intros p a m c now1 now2 s1 s2 SS Q1 Q2 H1 H2. unfold get_media in *.
  change (c_ext (other p a m c)) with (c_ext c) in H2.
  destruct (negb (str_in (c_ext c) [".m4s"; ".jpg"])); [discriminate|].
  destruct (Qltb now1 _); [discriminate|]. destruct (match c_aet c with None => false | Some e => _ end); [discriminate|].
  destruct (Qltb now2 _); [discriminate|]. destruct (match c_aet (other p a m c) with None => false | Some e => _ end); [discriminate|].
  destruct (String.eqb_spec (c_ext c) ".m4s") as [EX|EX].
  - apply m4s_quiet in H1; [|exact Q1]. apply m4s_quiet in H2; [|apply quiet_other; exact Q2].
    split; [eapply process_same; eauto|]. intros _. unfold process_media_segment in H1.
    destruct (request_nr c) as [n|]; cbn [bind] in H1; [|discriminate].
    destruct (segment_reply c now1 n) as [[r1|v1]|] eqn:E1; cbn [bind] in *; try discriminate.
    destruct (c_reps c); [discriminate|]. injection H1 as <-. unfold segment_reply in E1.
    repeat match type of E1 with
    | bind ?x _ = _ => destruct x as [?|]; cbn [bind] in E1; [|discriminate]
    | (if ?x then _ else _) = _ => destruct x; try discriminate
    | match ?x with Some _ => _ | None => _ end = _ => destruct x; try discriminate
    | (let (_, _) := ?x in _) = _ => destruct x
    | Ok _ = Ok _ => injection E1 as <-; reflexivity
    end.
  - split; [|contradiction]. unfold process_thumbnail in *. rewrite request_other in H2.
    destruct (request_nr c) as [n|]; cbn [bind] in *; [|discriminate]. eapply thumbnail_same; eauto.
Qed.
Lemma mdat_timeless : forall n d o l ts sc tt df sx t1 t2 fuel data pos out sz,
  mdat_loop (mk_mparams n d o l ts sc tt df sx false t2) fuel data pos out sz =
  mdat_loop (mk_mparams n d o l ts sc tt df sx false t1) fuel data pos out sz.
Proof.
  intros n d o l ts sc tt df sx t1 t2. induction fuel as [|f IH]; intros data pos out sz; cbn [mdat_loop]; [reflexivity|].
  destruct (pos <? blen data); [|reflexivity]. destruct (str_to_uint32 _); cbn [bind]; [|reflexivity].
  destruct (bytes_eqb _ _); [|apply IH].
  change (update_ttml_mdat (mk_mparams n d o l ts sc tt df sx false t2)) with (update_ttml_mdat (mk_mparams n d o l ts sc tt df sx false t1)).
  destruct (update_ttml_mdat _ _) as [(x, y)|]; cbn [bind]; [apply IH|reflexivity].
Qed.
Lemma media_timeless : forall n d o l ts sc tt df sx t1 t2 file,
  media_filter (mk_mparams n d o l ts sc tt df sx false t2) file =
  media_filter (mk_mparams n d o l ts sc tt df sx false t1) file.
Proof.
  intros n d o l ts sc tt df sx t1 t2 file. unfold media_filter. cbn [mp_is_ttml].
  rewrite (mdat_timeless n d o l ts sc tt df sx t1 t2). reflexivity.
Qed.
(** The clock enters the bytes of a segment only through the event of line 408-412. *)
Lemma filter_timeless : forall files p a m c rp rel sv dflt t1 t2, sv_emsg sv = false ->
  filter_media_segment files (other p a m c) rp rel sv dflt t2 = filter_media_segment files c rp rel sv dflt t1.
Proof.
  intros files p a m c rp rel sv dflt t1 t2 E. unfold filter_media_segment.
  change (c_ext (other p a m c)) with (c_ext c).
  destruct (files rel (sv_vod sv) (c_ext c)) as [f|]; cbn [bind]; [|reflexivity].
  unfold segment_params. change (c_seg_dur (other p a m c)) with (c_seg_dur c).
  change (c_scte35 (other p a m c)) with (c_scte35 c). change (c_insert_sidx (other p a m c)) with (c_insert_sidx c).
  rewrite E. rewrite (media_timeless _ _ _ _ _ _ _ _ _ (inject_Z t1) (inject_Z t2)). reflexivity.
Qed.

(** ** The reply *)
Definition is_error (x : response) : Prop := match x with RError _ => True | _ => False end.
Lemma content_same : forall s p a m c sv b t1 t2, sv_emsg sv = false ->
  media_content s (other p a m c) sv b t2 = media_content s c sv b t1.
Proof.
  intros s p a m c sv b t1 t2 E. unfold media_content.
  change (c_reps (other p a m c)) with (c_reps c). change (c_content_name (other p a m c)) with (c_content_name c).
  change (c_rel_path (other p a m c)) with (c_rel_path c).
  destruct (c_reps c) as [|r1 [|r2 rs]] eqn:R; [reflexivity| |].
  - destruct b.
    + unfold chunked_segment. change (c_reps (other p a m c)) with (c_reps c). rewrite R.
      change (c_rel_path (other p a m c)) with (c_rel_path c). change (chunk_ticks (other p a m c)) with (chunk_ticks c).
      destruct (st_inits s (c_content_name c) (c_rel_path c) "init.mp4") as [i|]; cbn [bind]; [|reflexivity].
      destruct (init_filter i) as [(o, st)|]; cbn [bind]; [|reflexivity].
      destruct (match trex_dur (is_trex st) with Some d => Ok d | None => Err "AttributeError" end) as [d|]; cbn [bind]; [|reflexivity].
      rewrite (filter_timeless _ p a m c _ _ _ _ t1 t2 E). reflexivity.
    + unfold plain_segment. change (c_reps (other p a m c)) with (c_reps c). rewrite R.
      change (c_rel_path (other p a m c)) with (c_rel_path c). rewrite (filter_timeless _ p a m c _ _ _ _ t1 t2 E). reflexivity.
  - rewrite !(filter_timeless _ p a m c _ _ _ _ t1 t2 E). reflexivity.
Qed.
Lemma media_response_same : forall s p a m c b now1 now2 x1 x2, same_stop m c -> c_emsg_last c = false ->
  quiet c (py_int_of_Q now1) -> quiet c (py_int_of_Q now2) ->
  media_response s c b now1 = Ok x1 -> media_response s (other p a m c) b now2 = Ok x2 ->
  ~ is_error x1 -> ~ is_error x2 -> x1 = x2.
Proof.
  intros s p a m c b now1 now2 x1 x2 SS EL Q1 Q2 H1 H2 N1 N2. unfold media_response in *.
  change (c_ext (other p a m c)) with (c_ext c) in H2. change (c_content_name (other p a m c)) with (c_content_name c) in H2.
  change (c_rel_path (other p a m c)) with (c_rel_path c) in H2.
  destruct (get_media c now1) as [[w1|s1]|] eqn:G1; cbn [bind] in H1; try discriminate.
  { injection H1 as <-. exfalso. apply N1. exact I. }
  destruct (get_media (other p a m c) now2) as [[w2|s2]|] eqn:G2; cbn [bind] in H2; try discriminate.
  { injection H2 as <-. exfalso. apply N2. exact I. }
  destruct (media_same _ _ _ _ _ _ _ _ SS Q1 Q2 G1 G2) as (<- & EM).
  destruct (String.eqb_spec (c_ext c) ".m4s") as [EX|EX].
  - rewrite (content_same s p a m c s1 b (py_int_of_Q now1) (py_int_of_Q now2)) in H2 by (rewrite (EM EX); exact EL). congruence.
  - destruct (st_files s (c_content_name c) (c_rel_path c) (sv_vod s1) (c_ext c)); cbn [bind] in *; congruence.
Qed.
Lemma init_response_same : forall s p a m c now1 now2 x1 x2,
  init_response s c now1 = Ok x1 -> init_response s (other p a m c) now2 = Ok x2 ->
  ~ is_error x1 -> ~ is_error x2 -> x1 = x2.
Proof.
  intros s p a m c now1 now2 x1 x2 H1 H2 N1 N2. unfold init_response in *.
  change (c_reps (other p a m c)) with (c_reps c) in H2. change (c_content_name (other p a m c)) with (c_content_name c) in H2.
  change (c_rel_path (other p a m c)) with (c_rel_path c) in H2. change (c_filename (other p a m c)) with (c_filename c) in H2.
  destruct (get_init c now1) as [[]|]; cbn [bind] in H1; try discriminate;
    [|injection H1 as <-; exfalso; apply N1; exact I].
  destruct (get_init (other p a m c) now2) as [[]|]; cbn [bind] in H2; try discriminate;
    [|injection H2 as <-; exfalso; apply N2; exact I].
  destruct (c_reps c) as [|r1 [|r2 [|r3 rs]]]; try (injection H1 as <-; exfalso; apply N1; exact I); congruence.
Qed.
Lemma respond_same : forall s r c now1 now2 x1 x2, Forall fixed_part (path_parts r) ->
  provider_config s r now1 = Ok c -> c_emsg_last c = false -> media_ext c ->
  quiet c (py_int_of_Q now1) -> quiet c (py_int_of_Q now2) ->
  respond s r now1 = Ok x1 -> respond s r now2 = Ok x2 -> ~ is_error x1 -> ~ is_error x2 -> x1 = x2.
Proof.
  intros s r c now1 now2 x1 x2 F P EL ME Q1 Q2 H1 H2 N1 N2. unfold respond in *.
  destruct (provider_other s r now1 now2 c F P) as (p & a & m & P2 & SS). rewrite P in H1. rewrite P2 in H2. cbn [bind] in *.
  change (c_ext (other p a m c)) with (c_ext c) in H2. change (c_chunkdur (other p a m c)) with (c_chunkdur c) in H2.
  unfold media_ext in ME. cbn [In] in ME. destruct ME as [ME|[ME|[ME|[]]]]; rewrite <- ME in H1, H2;
    cbn [String.eqb Ascii.eqb Bool.eqb orb] in H1, H2.
  - exact (media_response_same s p a m c _ now1 now2 x1 x2 SS EL Q1 Q2 H1 H2 N1 N2).
  - exact (init_response_same s p a m c now1 now2 x1 x2 H1 H2 N1 N2).
  - exact (media_response_same s p a m c _ now1 now2 x1 x2 SS EL Q1 Q2 H1 H2 N1 N2).
Qed.
Lemma undelivered : forall text rp,
  (let* (rp, _) := start_reply 404 (blen (encode_utf8 text)) [("Content-Type", Some "text/plain")] [encode_utf8 text] in Ok rp) = Ok rp ->
  ~ delivered rp.
Proof. intros text rp H K. assert (Z := start_404 _ _ _ _ H). destruct K; congruence. Qed.
Lemma content_reply_same : forall s r c now1 now2 rp1 rp2, Forall fixed_part (path_parts r) ->
  provider_config s r now1 = Ok c -> c_emsg_last c = false -> media_ext c ->
  quiet c (py_int_of_Q now1) -> quiet c (py_int_of_Q now2) ->
  content_reply s r now1 = Ok rp1 -> content_reply s r now2 = Ok rp2 -> delivered rp1 -> delivered rp2 -> rp1 = rp2.
Proof.
  intros s r c now1 now2 rp1 rp2 F P EL ME Q1 Q2 H1 H2 D1 D2.
  assert (K := respond_same s r c now1 now2). unfold content_reply in *.
  destruct (respond s r now1) as [x1|e1] eqn:R1; [|exfalso; eapply undelivered; eauto].
  destruct (respond s r now2) as [x2|e2] eqn:R2; [|exfalso; eapply undelivered; eauto].
  assert (N1 : ~ is_error x1) by (destruct x1; cbn [is_error]; intros []; eapply undelivered; [exact H1|exact D1]).
  assert (N2 : ~ is_error x2) by (destruct x2; cbn [is_error]; intros []; eapply undelivered; [exact H2|exact D2]).
  assert (E : x1 = x2) by (apply K; auto). subst x2. rewrite H1 in H2. congruence.
Qed.
Lemma shared_status : forall code l (dflt : headers) b rp,
  fst (match start_reply code l dflt b with Ok (rp, h) => (Ok rp, h) | Err e => (Err e, dflt) end) = Ok rp -> rp_status rp = code.
Proof. intros code l dflt b rp H. unfold start_reply in H. destruct (status_string code); cbn [bind fst] in H; [|discriminate]. injection H as <-. reflexivity. Qed.
Lemma application_content : forall limit s r now sid dflt rp, fst (application limit s r now sid dflt) = Ok rp ->
  delivered rp -> content_reply s r now = Ok rp.
Proof.
  intros limit s r now sid dflt rp H D. unfold application in H. destruct (limit =? 0); [exact H|].
  destruct (session_start (path_parts r) None) as [t|].
  - destruct (Qltb (inject_Z (t + limit)) now); [|destruct (Qltb (now + 5)%Q (inject_Z t)); [|exact H]].
    + apply shared_status in H. destruct D; congruence.
    + apply shared_status in H. destruct D; congruence.
  - destruct (String.eqb (url_ext r) ".mpd").
    + unfold start_reply in H. cbn [status_string bind Z.eqb Pos.eqb fst] in H. injection H as <-. destruct D; discriminate.
    + apply shared_status in H. destruct D; congruence.
Qed.
