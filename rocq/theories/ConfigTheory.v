(** Sessions with start, stop and duration options, tfdt_32, cont, modulo and
    timeoffset: properties C05, C06, C16-C21. *)
From Coq Require Import Lqa ZifyBool ZifyNat.
From Verif Require Import Base BaseProofs ConfigModel ProxyModel ProxySpec ProxyProofs ProxyTheory Proxy2Theory ConfigProofs.
Open Scope Z_scope.

(** A media request as the server handles it: URL parts after the prefix, clock. *)
Definition request (read : string -> result vodcfg) (base : string) (parts : list string)
           (now : Q) : result reply :=
  let* c := process_url read base parts (py_int_of_Q now) in get_media c now.

(** Attributes that no option of the loop touches. *)
Definition untouched (c : config) : Prop :=
  c_ast c = 0 /\ c_aet c = None /\ c_mpdur c = None /\ c_last_nrs c = [] /\
  c_stop_time c = None /\ c_timeoffset c = None /\ c_emsg_last c = false.

Lemma int_opt_untouched : forall s f u u',
  (forall z c, untouched c -> untouched (f z c)) ->
  untouched (u_cfg u) -> int_opt s f u = Ok u' -> untouched (u_cfg u').
Proof.
  intros s f u u' F U H. unfold int_opt in H. destruct (py_int s); [|discriminate].
  injection H as <-. cbn. apply F. auto.
Qed.
Lemma flag_opt_untouched : forall s f u u',
  (forall c, untouched c -> untouched (f c)) ->
  untouched (u_cfg u) -> flag_opt s f u = Ok u' -> untouched (u_cfg u').
Proof.
  intros s f u u' F U H. unfold flag_opt in H. destruct (py_int s); [|discriminate].
  injection H as <-. destruct (a =? 1); auto. cbn. apply F. auto.
Qed.

Lemma url_option_untouched : forall now k v u u', untouched (u_cfg u) ->
  url_option now k v u = Ok u' -> untouched (u_cfg u').
Proof.
  intros now k v u u' U H. unfold url_option in H.
  repeat match type of H with
  | (if ?b then _ else _) = _ => destruct b
  end;
  try (injection H as <-; cbn; exact U);
  try (eapply int_opt_untouched; [|exact U|exact H]; intros z c (a&b&c0&d&e&f&g); cbn;
       repeat split; assumption);
  try (eapply flag_opt_untouched; [|exact U|exact H]; intros c (a&b&c0&d&e&f&g); cbn;
       repeat split; assumption);
  try (destruct (py_int v); [|discriminate]; cbn [bind] in H; injection H as <-; cbn; exact U).
  - destruct (py_int v); [|discriminate]. cbn [bind] in H.
    destruct (modulo_init a now); [|discriminate]. injection H as <-. exact U.
  - destruct (interpret_start_nr v); [|discriminate]. injection H as <-. exact U.
  - destruct (py_float v); [|injection H as <-; exact U].
    destruct (Qltb 0 a); injection H as <-; exact U.
  - discriminate.
Qed.

Lemma fold_opts_untouched : forall now opts u u', untouched (u_cfg u) ->
  fold_opts now opts u = Ok u' -> untouched (u_cfg u').
Proof.
  intros now. induction opts as [|(k, v) opts IH]; intros u u' U H; cbn [fold_opts] in H.
  - injection H as <-. auto.
  - apply bind_ok in H. destruct H as (u1 & H1 & H). eapply IH; [|exact H].
    eapply url_option_untouched; eauto.
Qed.

Lemma init_untouched : forall base, untouched (u_cfg (ustate_init base)).
Proof. intros. cbn. repeat split. Qed.

(** ** C05: start/stop sessions *)

(** Rounding of the stop time. *)
Lemma stop_round_up : forall b d, 0 <= b -> 0 < d <= 1000 ->
  let st := py_int_of_Q (inject_Z b + (999#1000) * inject_Z d)%Q / d * d in
  st - d < b <= st /\ (d | st).
Proof.
  intros b d Hb Hd st.
  assert (E : py_int_of_Q (inject_Z b + (999#1000) * inject_Z d)%Q = b + d - 1).
  { assert (P1 : (0 <= inject_Z b)%Q) by (change 0%Q with (inject_Z 0); apply (proj2 (inject_Z_le _ _)); lia).
    assert (P2 : (inject_Z 1 <= inject_Z d)%Q) by (apply (proj2 (inject_Z_le _ _)); lia).
    assert (P3 : (inject_Z d <= inject_Z 1000)%Q) by (apply (proj2 (inject_Z_le _ _)); lia).
    change (inject_Z 1) with 1%Q in *. change (inject_Z 1000) with 1000%Q in *.
    rewrite py_int_of_Q_nonneg by lra.
    apply Qfloor_unique.
    - rewrite inject_Z_minus, inject_Z_plus. change (inject_Z 1) with 1%Q. lra.
    - replace (b + d - 1 + 1) with (b + d) by lia. rewrite inject_Z_plus. lra. }
  assert (F := div_floor_bounds (b + d - 1) d ltac:(lia)).
  unfold st. rewrite E. split; [lia|]. exists ((b + d - 1) / d). reflexivity.
Qed.

Record start_stop_state (u : ustate) (a b : Z) : Prop := {
  ss_start : u_start u = Some a;
  ss_stop : u_stop u = Some b;
  ss_durs : u_durs u = [];
  ss_cont : u_cont u = false;
  ss_mod : u_mod u = None;
  ss_tfdt : c_tfdt32 (u_cfg u) = false;
  ss_unt : untouched (u_cfg u)
}.

(** AST is the largest multiple of d not above a, the stop time the smallest
    multiple of d not below b, and the advertised duration their difference. *)
Lemma C05_start_stop_times_pf : forall now parts pos v u c a b,
  start_stop_state u a b -> 0 < v_dur v <= 1000 -> 0 <= b ->
  finish_url now parts pos v u = Ok c ->
  let d := v_dur v in
  exists st,
    (c_ast c <= a < c_ast c + d /\ (d | c_ast c)) /\
    (st - d < b <= st /\ (d | st)) /\
    c_stop_time c = Some st /\ c_mpdur c = Some (inject_Z (st - c_ast c)) /\
    c_aet c = None /\ c_last_nrs c = [].
Proof.
  intros now parts pos v u c a b S Hd Hb H d.
  destruct (finish_url_stages _ _ _ _ _ _ H) as (l & c1 & c2 & c3 & c4 & p & H0 & H1 & H2 & H3 & H4 & ->).
  destruct S as [S1 S2 S3 S4 S5 S6 S7].
  rewrite S1, S2, S3, S5 in H1. rewrite S4 in H2, H3. rewrite S5 in H4.
  destruct (vod_keeps l u v) as (B0 & _). 
  destruct (vod_fields (set_reps l (u_cfg u)) v)
    as (_&_&_&_&_&_&_&f8&_&_&f11&_).
  set (c0 := update_with_vodcfg (set_reps l (u_cfg u)) v) in *.
  assert (D0 : c_seg_dur c0 = d) by (destruct B0 as (b1 & _); exact b1).
  assert (D0' : 0 < c_seg_dur c0) by (rewrite D0; unfold d; lia).
  destruct (start_time_fields _ _ _ _ _ _ D0' H1) as (K & A1 & _ & _ & _ & St & Nd).
  destruct (St b eq_refl) as (T1 & T2 & _). destruct (Nd eq_refl) as (N1 & N2 & _).
  assert (TF : c_tfdt32 c1 = false).
  { assert (B1 := keeps_base _ _ _ _ B0 K). destruct B1 as (_&_&_&_&_&_&_&_&_&_&_&b12&_). congruence. }
  rewrite TF in H2. injection H2 as <-. injection H3 as <-. injection H4 as <-.
  destruct (finish_tail_fields u p c1) as (_ & G1 & G2 & G3 & G4 & G5 & _).
  rewrite D0 in *.
  destruct S7 as (_ & U2 & _ & U4 & _).
  assert (R := stop_round_up b d Hb ltac:(unfold d; lia)).
  eexists. rewrite G1, G2, G3, G4, G5.
  split; [|split; [exact R|]].
  - rewrite A1. split; [|exists (a / d); reflexivity].
    assert (F := div_floor_bounds a d ltac:(unfold d; lia)). lia.
  - split; [exact T1|]. split; [exact T2|]. split.
    + rewrite N2, f8. exact U2.
    + rewrite N1, f11. exact U4.
Qed.

(** In a non-empty session (a < b) with start number s >= 0 and no time offset, the
    segments ever served are exactly the (stop-start)/d consecutive numbers from s,
    each from its availability time on and for ever. *)
Lemma start_stop_served : forall c n now st ato,
  wf_cfg c -> media_request c n -> c_stop_time c = Some st -> c_aet c = None ->
  c_last_nrs c = [] -> c_timeoffset c = None -> 0 <= c_start_nr c ->
  c_mpdur c = Some (inject_Z (st - c_ast c)) ->
  (c_seg_dur c | c_ast c) -> (c_seg_dur c | st) -> c_ast c < st ->
  c_ato c = Some ato ->
  ((exists sv, get_media c now = Ok (Serve sv)) <->
   (c_start_nr c <= n < c_start_nr c + (st - c_ast c) / c_seg_dur c /\
    (inject_Z (c_ast c + (n - c_start_nr c + 1) * c_seg_dur c) - ato <= now)%Q)).
Proof.
  intros c n now st ato W M Es Ee El Et Hs Em (x & Da) (y & Ds) Lt Ea.
  assert (Hd := wf_dur c W).
  assert (F : first_nr c = c_start_nr c).
  { unfold first_nr. rewrite Et. destruct (Z.eqb_spec (c_start_nr c) (-1)); lia. }
  assert (Efl : Qfloor (inject_Z (st - c_ast c) / inject_Z (c_seg_dur c)) = (st - c_ast c) / c_seg_dur c).
  { rewrite Ds, Da. rewrite <- Z.mul_sub_distr_r.
    rewrite Z.div_mul by lia. rewrite inject_Z_mult.
    assert (Q0 : ~ (inject_Z (c_seg_dur c) == 0)%Q).
    { change 0%Q with (inject_Z 0). intros K. apply (proj1 (inject_Z_eq _ _)) in K. lia. }
    assert (E : (inject_Z (y - x) * inject_Z (c_seg_dur c) / inject_Z (c_seg_dur c) == inject_Z (y - x))%Q)
      by (field; exact Q0).
    rewrite E. apply Qfloor_Z. }
  set (K := (st - c_ast c) / c_seg_dur c) in *.
  assert (HK : 0 < K).
  { unfold K. rewrite Ds, Da, <- Z.mul_sub_distr_r, Z.div_mul by lia.
    assert (x * c_seg_dur c < y * c_seg_dur c) by lia.
    apply Z.mul_lt_mono_pos_r in H; lia. }
  assert (SL : stop_limit c (c_start_nr c + K)).
  { split; [unfold has_stop; congruence|]. exists (inject_Z (st - c_ast c)). split; auto.
    rewrite Efl, Et, F. destruct (Z.eqb_spec (c_start_nr c) (-1)); lia. }
  assert (HS : servable c n now <->
     (c_start_nr c <= n < c_start_nr c + K /\
    (inject_Z (c_ast c + (n - c_start_nr c + 1) * c_seg_dur c) - ato <= now)%Q)).
  { unfold servable, session_started, session_not_over, available, within_end, in_time, seg_end.
    rewrite Ea, El, Ee, F. split.
    - intros (_ & _ & A & (B & _) & C & _). split; auto. split; auto. apply B; auto. lia.
    - intros ((A & B) & C).
      assert (P : (0 <= (n - c_start_nr c) * c_seg_dur c)%Z) by (apply Z.mul_nonneg_nonneg; lia).
      split; [|split; [discriminate|split; [lia|split; [split|split; auto]]]].
      + assert (inject_Z (c_ast c + c_seg_dur c) <=
              inject_Z (c_ast c + (n - c_start_nr c + 1) * c_seg_dur c))%Q
        by (apply (proj2 (inject_Z_le _ _)); lia). lra.
      + intros k Hk _. rewrite (stop_limit_fun _ _ _ Hk SL). auto.
      + congruence.
      + left. exists (c_start_nr c + K). split; auto. lia. }
  rewrite <- HS.
  destruct (get_media_total c n now W M) as [(A & E)|(A & r & E)]; rewrite E; split; eauto.
  - intros (sv & Q). discriminate.
  - contradiction.
Qed.

Lemma C05_start_stop_segments_partial_pf : forall c n now st ato,
  wf_cfg c -> media_request c n -> c_stop_time c = Some st -> c_aet c = None ->
  c_last_nrs c = [] -> c_timeoffset c = None -> 0 <= c_start_nr c ->
  c_mpdur c = Some (inject_Z (st - c_ast c)) ->
  (c_seg_dur c | c_ast c) -> (c_seg_dur c | st) -> c_ast c < st ->
  c_ato c = Some ato ->
  ((exists sv, get_media c now = Ok (Serve sv)) <->
   (c_start_nr c <= n < c_start_nr c + (st - c_ast c) / c_seg_dur c /\
    (inject_Z (c_ast c + (n - c_start_nr c + 1) * c_seg_dur c) - ato <= now)%Q)).
Proof. exact start_stop_served. Qed.
Example ex_start_stop :
  ex_get ["start_602"; "stop_655"; "testpic"; "V1"; "9.m4s"]%string 100000 =
    Ok (Serve (mkServed 10 9 0 false 54 false)) /\
  ex_get ["start_602"; "stop_655"; "testpic"; "V1"; "10.m4s"]%string 100000 = Ok (Refuse RBeyondStop) /\
  ex_get ["start_602"; "stop_655"; "testpic"; "V1"; "9.m4s"]%string 659 = Ok (Refuse RTooEarly).
Proof. vm_compute. auto. Qed.

Lemma url_option_start : forall now v u, url_option now "start" v u =
  let* z := py_int v in
  Ok (mkU (u_cfg u) (Some z) (u_stop u) (u_durs u) (u_toff u) (u_cont u) (u_mod u) (u_addloc u)).
Proof. reflexivity. Qed.
Lemma url_option_stop : forall now v u, url_option now "stop" v u =
  let* z := py_int v in
  Ok (mkU (u_cfg u) (u_start u) (Some z) (u_durs u) (u_toff u) (u_cont u) (u_mod u) (u_addloc u)).
Proof. reflexivity. Qed.

Lemma fold_start_stop : forall now a b base,
  fold_opts now [("start", print_Z a); ("stop", print_Z b)]%string (ustate_init base) =
  Ok (mkU (config_init base) (Some a) (Some b) [] None false None false).
Proof.
  intros. cbn [fold_opts]. rewrite url_option_start, py_int_print. cbn [bind].
  rewrite url_option_stop, py_int_print. reflexivity.
Qed.

(** finish_url succeeds on a plain or start/stop session. *)
Lemma process_start_ok : forall a now stop c, 0 < c_seg_dur c ->
  exists c', process_start_time a [] now stop c = Ok c'.
Proof.
  intros a now stop c H. unfold process_start_time. rewrite quantize_ok by auto. cbn [bind].
  destruct stop; [|eauto]. rewrite quantize_ok by auto. cbn [bind]. eauto.
Qed.

Lemma finish_url_ok : forall now parts pos v u l,
  update_with_reps (u_cfg u) v parts pos = Ok (set_reps l (u_cfg u)) ->
  u_mod u = None -> u_durs u = [] -> u_cont u = false -> c_tfdt32 (u_cfg u) = false ->
  0 < v_dur v -> c_ast (u_cfg u) = 0 -> c_mup (u_cfg u) = None -> c_timeoffset (u_cfg u) = None ->
  exists c, finish_url now parts pos v u = Ok c /\ c_reps c = l /\ c_timeoffset c = u_toff u.
Proof.
  intros now parts pos v u l HR Em Ed Ec Ht Hd Ha Hm Ho. unfold finish_url. rewrite HR. cbn [bind].
  rewrite Em, Ed, Ec.
  destruct (vod_keeps l u v) as (B0 & _ & R0).
  destruct (vod_fields (set_reps l (u_cfg u)) v)
    as (f1&_&_&_&_&f6&_&_&_&f10&_&f12&_&_&f15&_).
  set (c0 := update_with_vodcfg (set_reps l (u_cfg u)) v) in *.
  assert (P : exists c1, (match u_start u with None => Ok c0 | Some s =>
     process_start_time s [] now (u_stop u) c0 end) = Ok c1 /\ c_reps c1 = l /\
     c_tfdt32 c1 = false /\ c_timeoffset c1 = None /\
     (c_ast c1 = 0 \/ c_mup c1 = Some (inject_Z 10))).
  { assert (D0 : 0 < c_seg_dur c0) by (rewrite f1; lia).
    destruct (u_start u) as [s|].
    - destruct (process_start_ok s now (u_stop u) c0 D0) as (c1 & H1). exists c1. split; auto.
      destruct (start_time_fields _ _ _ _ _ _ D0 H1) as (K & _ & K2 & K3 & _).
      destruct K as (_&_&_&_&_&_&_&_&_&_&_&k12&_&k14&_).
      rewrite k12, k14, K2, K3, R0, f12, f15, f10. cbn [c_mup set_reps c_tfdt32 c_timeoffset].
      change (c_mup (set_reps l (u_cfg u))) with (c_mup (u_cfg u)). rewrite Hm. auto.
    - exists c0. split; auto. split; auto. rewrite f12, f15, f6. auto. }
  clearbody c0. destruct P as (c1 & -> & R1 & T1 & O1 & A1). cbn [bind]. rewrite T1. cbn [bind].
  assert (P : exists p, update_publish_time now c1 = Ok (set_publish_time p c1)).
  { unfold update_publish_time. destruct (Z.eqb_spec (c_ast c1) 0); [eauto|].
    destruct A1 as [A1|A1]; [contradiction|]. rewrite A1. unfold quantizeQ.
    change (Qeq_bool (inject_Z 10) 0) with false. cbv iota. cbn [bind]. eauto. }
  destruct P as (p & ->). cbn [bind]. eexists. split; [reflexivity|].
  destruct (u_addloc u); destruct (u_toff u); cbn; auto.
Qed.

(** The request for segment [n] of a start/stop session at URL level. *)
Lemma C05_start_stop_url_partial_pf : forall read base name rp ct m v a b n now,
  read name = Ok v -> plain_name name -> split_dunder rp = [rp] ->
  content_type_for_rep (v_media v) rp = Some (ct, m) ->
  0 < v_dur v <= 1000 -> 0 < v_n v -> 0 <= a -> a < b -> 0 <= n -> (0 <= now)%Q ->
  let d := v_dur v in
  let start := a / d * d in               (* a rounded down *)
  let stop := - ((- b) / d) * d in        (* b rounded up *)
  let url := (media_parts [("start", print_Z a); ("stop", print_Z b)] name rp
                (print_nat n ++ ".m4s"))%string in
  (exists sv, request read base url now = Ok (Serve sv)) <->
  (n < (stop - start) / d /\ (inject_Z (start + (n + 1) * d) <= now)%Q).
Proof.
  intros read base name rp ct m v a b n now HR HN HS HC Hd Hn Ha Hab Hn0 Hnow d start stop url.
  unfold request. unfold url. rewrite process_url_media by
    (auto; repeat constructor).
  rewrite fold_start_stop. cbn [bind]. rewrite HR. cbn [bind].
  set (u := filedata _ _ _ _ _).
  set (parts := media_parts _ _ _ _).
  assert (Hb0 : 0 <= b) by lia.
  assert (HU : start_stop_state u a b).
  { constructor; try reflexivity. unfold u. cbn. repeat split. }
  (* finish_url succeeds *)
  assert (HF : exists c, finish_url (py_int_of_Q now) parts 2 v u = Ok c /\
                         c_reps c = [mkRep rp ct (m_timescale m)] /\ c_timeoffset c = None).
  { assert (RM := reps_media u v [("start", print_Z a); ("stop", print_Z b)]%string name rp
                     (print_nat n ++ ".m4s")%string ct m HS HC).
    apply (finish_url_ok _ _ _ _ _ _ RM); try reflexivity; try lia; auto. }
  destruct HF as (c & HF & HReps & HTo).
  cbn [List.length]. rewrite HF. cbn [bind].
  destruct (finish_url_wf _ _ _ _ u _ (proj1 Hd) Hn eq_refl HF) as (W & B).
  destruct (C05_start_stop_times_pf _ _ _ _ _ _ _ _ HU Hd Hb0 HF)
    as (st & (A1 & A2) & (B1 & B2) & T1 & T2 & T3 & T4).
  destruct B as (b1&b2&b3&b4&b5&b6&b7&b8&b9&_).
  assert (Eato : c_ato c = Some 0%Q) by (rewrite b4; reflexivity).
  assert (Esnr : c_start_nr c = 0) by (rewrite b5; reflexivity).
  assert (Efn : c_filename c = (print_nat n ++ ".m4s")%string) by (rewrite b6; reflexivity).
  destruct (print_nat_spec n Hn0) as (P1 & P2 & P3).
  assert (Eext : c_ext c = ".m4s"%string).
  { rewrite b8. unfold u. cbn -[splitext print_nat append].
    change (print_nat n ++ ".m4s")%string with (print_nat n ++ String "." "m4s")%string.
    rewrite splitext_ext; auto.
    - intros x Hx. eapply all_digits_no_dot; eauto.
    - simpl. intros x [<-|[<-|[<-|[]]]]; discriminate. }
  assert (MR : media_request c n).
  { constructor; auto.
    - apply C29_number_addressing_pf; auto.
    - rewrite HReps. discriminate.
    - intros u0. rewrite b9. unfold u. cbn. discriminate. }
  (* identify start and stop *)
  assert (Est : c_ast c = start).
  { unfold start. destruct A2 as (x & Hx). rewrite Hx in *. 
    assert (a / d = x) by (symmetry; apply Z.div_unique_pos with (r := a - d * x); fold d in A1; lia).
    rewrite H. reflexivity. }
  assert (Esp : st = stop).
  { unfold stop. destruct B2 as (y & Hy). rewrite Hy in *.
    assert (- b / d = - y) by (symmetry; apply Z.div_unique_pos with (r := y * d - b); fold d in B1; lia).
    rewrite H. lia. }
  assert (D : c_seg_dur c = d) by exact b1.
  fold d in A2, B2; rewrite <- D in A2, B2.
  assert (G := start_stop_served c n now st 0%Q W MR T1 T3 T4 HTo ltac:(lia) T2 A2 B2 ltac:(lia) Eato).
  rewrite G, Esnr, D, <- Est, <- Esp, Z.sub_0_r. split.
  - intros (X & Y). split; [lia|]. lra.
  - intros (X & Y). split; [lia|]. lra.
Qed.
Example ex_start_stop_url : forall now, now = 700%Q ->
  request ex_read "http://h/" (media_parts [("start", print_Z 602); ("stop", print_Z 655)] "testpic" "V1"
             (print_nat 9 ++ ".m4s"))%string now = Ok (Serve (mkServed 10 9 0 false 54 false)).
Proof. intros now ->. vm_compute. reflexivity. Qed.

(** Finding: snr_-1 (start number left out of the MPD, i.e. 1): the stop number is
    computed from -1, so the last two segments of the session are refused. *)
Lemma C05_snr_default_refuted_pf : exists parts now,
  parts = ["snr_-1"; "start_600"; "stop_660"; "testpic"; "V1"; "9.m4s"]%string /\
  (* numbers 1..10 are the ten segments of the session *)
  ex_get parts now = Ok (Refuse RBeyondStop) /\
  ex_get ["snr_1"; "start_600"; "stop_660"; "testpic"; "V1"; "9.m4s"]%string now
    = Ok (Serve (mkServed 9 9 0 false 48 false)).
Proof.
  exists ["snr_-1"; "start_600"; "stop_660"; "testpic"; "V1"; "9.m4s"]%string, 1000%Q.
  vm_compute. auto.
Qed.

(** Finding: an empty session (start = stop) with start number 0 has stop number 0,
    which the code takes for "no stop": its segments are served. *)
Lemma C05_empty_session_refuted_pf : exists now sv,
  ex_get ["start_600"; "stop_600"; "testpic"; "V1"; "5.m4s"]%string now = Ok (Serve sv).
Proof. exists 640%Q. eexists. vm_compute. reflexivity. Qed.

(** Finding: for segment durations above 1000 s the stop time is not rounded up. *)
Lemma C05_long_segments_refuted_pf : exists b d,
  0 <= b /\ 0 < d /\
  py_int_of_Q (inject_Z b + (999#1000) * inject_Z d)%Q / d * d < b.
Proof. exists 2002, 2001. vm_compute. repeat split; congruence. Qed.

(** ** C06: duration-limited sessions *)

Lemma end_times_last : forall start d durs total, 0 < d -> durs <> [] ->
  exists pairs, end_times start d durs total = Ok pairs /\ pairs <> [] /\
    last pairs (0, 0) = ((start + total + fold_right Z.add 0 durs) / d * d,
                         total + fold_right Z.add 0 durs).
Proof.
  intros start d durs. induction durs as [|x durs IH]; intros total Hd N; [congruence|].
  cbn [end_times]. rewrite quantize_ok by auto. cbn [bind].
  destruct durs as [|y durs].
  - cbn. eexists. split; [reflexivity|]. split; [discriminate|]. cbn. f_equal; [|lia].
    do 2 f_equal. lia.
  - destruct (IH (total + x) Hd ltac:(discriminate)) as (pairs & -> & Np & L).
    cbn [bind]. eexists. split; [reflexivity|]. split; [discriminate|].
    destruct pairs as [|p pairs]; [congruence|].
    change (last ((((start + (total + x)) / d * d), total + x) :: p :: pairs) (0, 0))
      with (last (p :: pairs) (0, 0)). rewrite L. cbn [fold_right]. f_equal; [|lia].
    do 2 f_equal. lia.
Qed.

Lemma start_time_last : forall a durs now c c', durs <> [] -> 0 < c_seg_dur c ->
  c_last_nrs c = [] -> process_start_time a durs now None c = Ok c' ->
  let d := c_seg_dur c in
  c_last_nrs c' = [inject_Z (((a + fold_right Z.add 0 durs) / d * d - a / d * d) / d - 1)].
Proof.
  intros a durs now c c' N Hd L0 H. unfold process_start_time in H. intros d. fold d in Hd, H.
  clearbody d.
  rewrite quantize_ok in H by auto. cbn [bind] in H.
  set (c1 := match c_mup _ with None => _ | Some _ => _ end) in H.
  assert (L1 : c_last_nrs c1 = []).
  { unfold c1. destruct (c_mup _); exact L0. }
  clearbody c1.
  destruct durs as [|x durs]; [congruence|].
  destruct (end_times_last a d (x :: durs) 0 Hd N) as (pairs & E & Np & L).
  rewrite E in H. cbn [bind] in H. rewrite (py_last_ok pairs (0, 0)) in H by auto.
  cbn [bind] in H. rewrite L in H. cbn [fst] in H. rewrite py_div_ok in H by lia. cbn [bind] in H.
  rewrite L1 in H. cbn [app] in H. rewrite Z.add_0_r in H.
  apply bind_ok in H. destruct H as (c2 & H & E2). injection E2 as <-.
  apply aet_fields in H. destruct H as (_ & _ & EL & _). rewrite EL. reflexivity.
Qed.

Record dur_state (u : ustate) (a : Z) (durs : list Z) : Prop := {
  ds_start : u_start u = Some a;
  ds_stop : u_stop u = None;
  ds_durs : u_durs u = durs;
  ds_ne : durs <> [];
  ds_cont : u_cont u = false;
  ds_mod : u_mod u = None;
  ds_tfdt : c_tfdt32 (u_cfg u) = false;
  ds_unt : untouched (u_cfg u)
}.

(** The last number is fixed by the total duration, whatever the time of the request. *)
Lemma C06_last_number_partial_pf : forall now parts pos v u c a durs,
  dur_state u a durs -> 0 < v_dur v ->
  finish_url now parts pos v u = Ok c ->
  let d := v_dur v in
  let total := fold_right Z.add 0 durs in
  c_ast c = a / d * d /\
  c_last_nrs c = [inject_Z (((a + total) / d * d - a / d * d) / d - 1)] /\
  c_stop_time c = None.
Proof.
  intros now parts pos v u c a durs S Hd H d total.
  destruct (finish_url_stages _ _ _ _ _ _ H) as (l & c1 & c2 & c3 & c4 & p & H0 & H1 & H2 & H3 & H4 & ->).
  destruct S as [S1 S2 S3 S4 S5 S6 S7 S8].
  rewrite S1, S2, S3, S6 in H1. rewrite S5 in H2, H3. rewrite S6 in H4.
  destruct (vod_keeps l u v) as (B0 & _).
  destruct (vod_fields (set_reps l (u_cfg u)) v)
    as (_&_&_&_&_&_&_&f8&_&_&f11&_&_&f14&_).
  set (c0 := update_with_vodcfg (set_reps l (u_cfg u)) v) in *.
  assert (D0 : c_seg_dur c0 = d) by (destruct B0 as (b1 & _); exact b1).
  assert (D0' : 0 < c_seg_dur c0) by (rewrite D0; unfold d; lia).
  assert (L0 : c_last_nrs c0 = []) by (rewrite f11; destruct S8 as (_ & _ & _ & U4 & _); exact U4).
  assert (P0 : c_stop_time c0 = None) by (rewrite f14; destruct S8 as (_ & _ & _ & _ & U5 & _); exact U5).
  clear f8 f11 f14. clearbody c0.
  destruct (start_time_fields _ _ _ _ _ _ D0' H1) as (K & A1 & _ & _ & NS & _ & _).
  assert (L1 := start_time_last _ _ _ _ _ S4 D0' L0 H1). rewrite D0 in L1. fold total in L1.
  assert (TF : c_tfdt32 c1 = false).
  { assert (B1 := keeps_base _ _ _ _ B0 K). destruct B1 as (_&_&_&_&_&_&_&_&_&_&_&b12&_). congruence. }
  rewrite TF in H2. injection H2 as <-. injection H3 as <-. injection H4 as <-.
  destruct (finish_tail_fields u p c1) as (_ & G1 & G2 & G3 & G4 & G5 & _).
  rewrite G1, G4, G5, L1, A1, D0. split; auto. split; auto.
  destruct (NS eq_refl) as (NS1 & _). rewrite NS1. exact P0.
Qed.

(** Nothing beyond the last number is served, and lmsg marks exactly that number. *)
Lemma C06_last_segment_partial_pf : forall c n now L sv,
  wf_cfg c -> media_request c n -> c_last_nrs c = [inject_Z L] ->
  get_media c now = Ok (Serve sv) ->
  n <= L /\ (sv_lmsg sv = true <-> n = L).
Proof.
  intros c n now L sv W M El H.
  apply (proj1 (get_media_serve_iff _ n _ _ W M)) in H.
  destruct H as ((_ & _ & _ & (_ & E) & _) & ->).
  rewrite El in E. specialize (E ltac:(discriminate)). cbn [last] in E.
  apply (proj1 (inject_Z_le _ _)) in E. split; auto.
  cbn [sv_lmsg the_served]. unfold the_served, Q_in; cbn [sv_lmsg]. rewrite El.
  cbn [existsb]. rewrite orb_false_r. split.
  - intros K. apply Qeq_bool_iff in K. apply (proj1 (inject_Z_eq _ _)) in K. auto.
  - intros ->. apply Qeq_bool_iff. reflexivity.
Qed.
Example ex_dur_session :
  ex_get ["start_600"; "dur_30"; "dur_30"; "testpic"; "V1"; "9.m4s"]%string 670 =
    Ok (Serve (mkServed 10 9 0 true 54 false)) /\
  ex_get ["start_600"; "dur_30"; "dur_30"; "testpic"; "V1"; "8.m4s"]%string 670 =
    Ok (Serve (mkServed 9 8 0 false 48 false)) /\
  ex_get ["start_600"; "dur_30"; "dur_30"; "testpic"; "V1"; "10.m4s"]%string 670 =
    Ok (Refuse RBeyondLast).
Proof. vm_compute. auto. Qed.

Lemma url_option_dur : forall now v u, url_option now "dur" v u =
  let* z := py_int v in
  Ok (mkU (u_cfg u) (u_start u) (u_stop u) (u_durs u ++ [z]) (u_toff u) (u_cont u) (u_mod u) (u_addloc u)).
Proof. reflexivity. Qed.
Lemma url_option_snr : forall now v u, url_option now "snr" v u =
  let* z := interpret_start_nr v in Ok (u_setcfg (set_start_nr z) u).
Proof. reflexivity. Qed.

Lemma dur_session_reps : forall now parts pos v u c a T l,
  update_with_reps (u_cfg u) v parts pos = Ok (set_reps l (u_cfg u)) ->
  dur_state u a [T] -> 0 < v_dur v -> u_toff u = None -> c_timeoffset (u_cfg u) = None ->
  finish_url now parts pos v u = Ok c ->
  c_reps c = l /\ c_timeoffset c = None.
Proof.
  intros now parts pos v u c a T l0 RM DS Hd To To' HF.
    destruct (finish_url_stages _ _ _ _ _ _ HF) as (l & c1 & c2 & c3 & c4 & p & H0 & H1 & H2 & H3 & H4 & ->).
    assert (El : l = l0).
    { rewrite H0 in RM. 
      assert (E0 : forall x y : config, Ok x = Ok y -> c_reps x = c_reps y) by (intros x y E0; congruence).
      specialize (E0 _ _ RM). exact E0. }
    subst l. clear H0.
    destruct DS as [S1 S2 S3 S4 S5 S6 S7 S8].
    rewrite S1, S2, S3, S6 in H1. rewrite S5 in H2, H3. rewrite S6 in H4.
    destruct (vod_keeps l0 u v) as (B0 & _ & R0).
    destruct (vod_fields (set_reps l0 (u_cfg u)) v)
      as (f1&_&_&_&_&f6&_&_&_&f10&_&f12&_&_&f15&_).
    set (c0 := update_with_vodcfg (set_reps l0 (u_cfg u)) v) in *.
    assert (D0' : 0 < c_seg_dur c0) by (rewrite f1; lia).
    clearbody c0.
    destruct (start_time_fields _ _ _ _ _ _ D0' H1) as (K & _ & K2 & _).
    destruct K as (_&_&_&_&_&_&_&_&_&_&_&k12&_&k14&_).
    assert (TF : c_tfdt32 c1 = false) by (rewrite k12, f12; exact S7).
    rewrite TF in H2. injection H2 as <-. injection H3 as <-. injection H4 as <-.
    destruct (finish_tail_fields u p c1) as ((_&_&_&_&_&_&_&_&_&_&_&_&_&q14&_) & _ & _ & _ & _ & _ & _ & q & _).
    rewrite q14, k14, R0, q, To, K2, f15. split; [reflexivity|]. exact To'.
Qed.

(** What a start/dur session with a given start number serves, at URL level. *)
Lemma dur_url_served : forall read base name rp ct m v s a T n now sv,
  read name = Ok v -> plain_name name -> split_dunder rp = [rp] ->
  content_type_for_rep (v_media v) rp = Some (ct, m) ->
  0 < v_dur v -> 0 < v_n v -> 0 <= s -> 0 <= n ->
  let d := v_dur v in
  let url := (media_parts [("snr", print_Z s); ("start", print_Z a); ("dur", print_Z T)] name rp
                (print_nat n ++ ".m4s"))%string in
  request read base url now = Ok (Serve sv) ->
  s <= n <= ((a + T) / d * d - a / d * d) / d - 1.
Proof.
  intros read base name rp ct m v s a T n now sv HR HN HS HC Hd Hn Hs Hn0 d url.
  unfold request, url. rewrite process_url_media by (auto; repeat constructor).
  assert (FO : fold_opts (py_int_of_Q now) [("snr", print_Z s); ("start", print_Z a); ("dur", print_Z T)]%string
    (ustate_init base) =
   Ok (mkU (set_start_nr s (config_init base)) (Some a) None [T] None false None false)).
  { cbn [fold_opts]. rewrite url_option_snr. unfold interpret_start_nr. rewrite py_int_print.
    destruct (Z.ltb_spec s (-1)); [lia|]. cbn [bind].
    rewrite url_option_start, py_int_print. cbn [bind].
    rewrite url_option_dur, py_int_print. reflexivity. }
  rewrite FO. cbn [bind]. rewrite HR. cbn [bind].
  set (u := filedata _ _ _ _ _).
  set (parts := media_parts _ _ _ _).
  assert (DS : dur_state u a [T]).
  { constructor; try reflexivity. discriminate. unfold u. cbn. repeat split. }
  assert (Ru : c_start_nr (u_cfg u) = s) by reflexivity.
  assert (Rf : c_filename (u_cfg u) = (print_nat n ++ ".m4s")%string) by reflexivity.
  assert (Rm : c_multi_url (u_cfg u) = []) by reflexivity.
  assert (Rs : c_stop_time (u_cfg u) = None) by reflexivity.
  assert (To : u_toff u = None) by reflexivity.
  assert (To' : c_timeoffset (u_cfg u) = None) by reflexivity.
  assert (RM := reps_media u v [("snr", print_Z s); ("start", print_Z a); ("dur", print_Z T)]%string name rp
                     (print_nat n ++ ".m4s")%string ct m HS HC).
  fold parts in RM.
  destruct (print_nat_spec n Hn0) as (P1 & P2 & P3).
  assert (Eext : c_ext (u_cfg u) = ".m4s"%string).
  { unfold u. cbn -[splitext print_nat append].
    change (print_nat n ++ ".m4s")%string with (print_nat n ++ String "." "m4s")%string.
    rewrite splitext_ext; auto.
    - intros x Hx. eapply all_digits_no_dot; eauto.
    - simpl. intros x [<-|[<-|[<-|[]]]]; discriminate. }
  clearbody parts u.
  intros H. apply bind_ok in H. destruct H as (c & HF & H).
  destruct (finish_url_wf _ _ _ v u _ Hd Hn Rs HF) as (W & B).
  assert (HL := C06_last_number_partial_pf _ _ _ v u c a [T] DS Hd HF). cbv zeta in HL. fold d in HL.
  destruct HL as (_ & HL & _). cbn [fold_right] in HL. rewrite Z.add_0_r in HL.
  destruct B as (b1&b2&b3&b4&b5&b6&b7&b8&b9&_).
  assert (RT := dur_session_reps _ _ _ _ _ _ _ _ _ RM DS Hd To To' HF).
  destruct RT as (Rr & Rt).
  assert (MR : media_request c n).
  { constructor; auto.
    - rewrite b8. auto.
    - apply C29_number_addressing_pf; auto. congruence.
    - rewrite Rr. discriminate.
    - intros x. rewrite b9, Rm. discriminate. }
  destruct (C06_last_segment_partial_pf c n now _ sv W MR HL H) as (C & _).
  split; auto.
  apply (proj1 (get_media_serve_iff _ n _ _ W MR)) in H.
  destruct H as ((_ & _ & A & _) & _). unfold first_nr in A. rewrite Rt, b5, Ru in A.
  destruct (Z.eqb_spec s (-1)); lia.
Qed.

Lemma C06_duration_url_partial_pf : forall read base name rp ct m v a T n now sv,
  read name = Ok v -> plain_name name -> split_dunder rp = [rp] ->
  content_type_for_rep (v_media v) rp = Some (ct, m) ->
  0 < v_dur v -> 0 < v_n v -> 0 <= n ->
  let d := v_dur v in
  let url := (media_parts [("snr", print_Z 0); ("start", print_Z a); ("dur", print_Z T)] name rp
                (print_nat n ++ ".m4s"))%string in
  request read base url now = Ok (Serve sv) ->
  n < ((a + T) / d * d - a / d * d) / d.
Proof.
  intros read base name rp ct m v a T n now sv H1 H2 H3 H4 H5 H6 H7 d url H.
  assert (K := dur_url_served read base name rp ct m v 0 a T n now sv H1 H2 H3 H4 H5 H6 (Z.le_refl 0) H7 H).
  cbv zeta in K. fold d in K. lia.
Qed.

(** Finding: the last number ignores the start number.  With snr_10 and ten segments
    of duration the session has no segment at all. *)
Lemma C06_start_number_refuted_pf : exists s T d,
  0 <= s /\ 0 < T /\ d = v_dur ex_vod /\
  forall n now sv, 0 <= n ->
    request ex_read "http://h/"
      (media_parts [("snr", print_Z s); ("start", print_Z 600); ("dur", print_Z T)] "testpic" "V1"
         (print_nat n ++ ".m4s"))%string now <> Ok (Serve sv).
Proof.
  exists 10, 60, 6. repeat split; try lia. intros n now sv Hn H.
  assert (K := dur_url_served ex_read "http://h/" "testpic" "V1" "video" (mkMedia 90000 ["V1"; "V2"]%string None None) ex_vod 10 600 60 n now sv).
  cbv zeta in K. 
  assert (10 <= n <= 9); [|lia]. apply K; try reflexivity; try lia; auto.
Qed.
