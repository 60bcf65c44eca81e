(** Thumbnails (C55), up/down simulation (C49), multiplexed representations
    (C57) and time addressing (C29). *)
From Coq Require Import Lqa ZifyBool ZifyNat Sorted.
From Verif Require Import Base BaseProofs ConfigModel ProxyModel ProxySpec ProxyProofs ProxyTheory.
Open Scope Z_scope.

(** ** C55: thumbnails *)

(** Without time offset and stop time a thumbnail is served exactly when the media
    segment of the same number is within its window, from the same loop position. *)
Lemma C55_thumbnail_like_media_partial_pf : forall c n now,
  wf_cfg c -> c_timeoffset c = None -> c_stop_time c = None ->
  (available c n now ->
     thumbnail_reply c now n =
       Ok (Serve (mkServed (c_vod_first c + loop_index c (media_start c n)) n
                           (loop_start c (media_start c n)) false (media_start c n) false))) /\
  (~ available c n now -> forall sv, thumbnail_reply c now n <> Ok (Serve sv)).
Proof.
  intros c n now W Et Es.
  assert (Hd := wf_dur c W). assert (Hn := wf_n c W). destruct (wf_tsbd c W) as (b & Hb).
  assert (F : first_nr c = if c_start_nr c =? -1 then 1 else c_start_nr c).
  { unfold first_nr. rewrite Et. reflexivity. }
  assert (NS : forall k, ~ stop_limit c k).
  { intros k (K & _). unfold has_stop in K. congruence. }
  assert (HT : (n - first_nr c) * c_seg_dur c + c_ast c - c_ast c = media_start c n).
  { unfold media_start, media_time_at_ast. rewrite Et. lia. }
  assert (HE : (n - first_nr c) * c_seg_dur c + c_ast c + c_seg_dur c = seg_end c n).
  { unfold seg_end. lia. }
  unfold thumbnail_reply. rewrite <- F.
  destruct (Z.ltb_spec n (first_nr c)).
  { split; [intros (A & _); lia|discriminate]. }
  set (B := match c_last_nrs c with [] => _ | _ => _ end).
  assert (HB : (B = Ok false /\ within_end c n) \/ (B = Ok true /\ ~ within_end c n)).
  { subst B. destruct (c_last_nrs c) as [|q l] eqn:E.
    - left. split; auto. split; [intros k K; destruct (NS k K)|congruence].
    - rewrite (py_last_ok (q :: l) 0%Q) by discriminate. cbn [bind].
      destruct (Qltb (last (q :: l) 0%Q) (inject_Z n)) eqn:EQ; qb; [right|left]; split; auto.
      + intros (_ & K). rewrite E in K. specialize (K ltac:(discriminate)). lra.
      + split; [intros k K; destruct (NS k K)|]. rewrite E. auto. }
  destruct HB as [(-> & HW)|(-> & HW)]; cbn [bind];
    [|split; [intros (_ & K & _); contradiction|discriminate]].
  rewrite HE, HT. unfold available, in_time.
  destruct (c_ato c) as [a|].
  - destruct (Qltb now (inject_Z (seg_end c n) - a)) eqn:E1; qb; cbn [bind].
    { split; [intros (_ & _ & K & _); lra|discriminate]. }
    rewrite Hb.
    destruct (Qltb (inject_Z (seg_end c n + c_seg_dur c + b)) now) eqn:E2; qb; cbn [bind].
    { split; [|discriminate]. intros (_ & _ & _ & [(k & K & _)|K]).
      - destruct (NS k K).
      - specialize (K b eq_refl). lra. }
    rewrite loop_position_spec by auto. split; [reflexivity|].
    intros K. exfalso. apply K. split; [lia|]. split; auto. split; auto. right.
    intros b' Hb'. injection Hb' as <-. auto.
  - cbn [bind]. rewrite loop_position_spec by auto. split; [reflexivity|].
    intros K. exfalso. apply K. split; [lia|]. auto.
Qed.
Example ex_thumb :
  ex_get ["testpic"; "V1"; "100.jpg"]%string 610 = Ok (Serve (mkServed 101 100 0 false 600 false)).
Proof. vm_compute. reflexivity. Qed.

(** Finding: a refusal of a thumbnail is never an error reply, it raises (the
    error helper is called with one argument too few). *)
Lemma C55_thumbnail_refusal_raises_pf : forall c n now,
  wf_cfg c ->
  (exists sv, thumbnail_reply c now n = Ok (Serve sv)) \/
  thumbnail_reply c now n = Err "TypeError: error_response".
Proof.
  intros c n now W.
  assert (Hd := wf_dur c W). assert (Hn := wf_n c W). destruct (wf_tsbd c W) as (b & Hb).
  unfold thumbnail_reply.
  destruct (n <? (if c_start_nr c =? -1 then 1 else c_start_nr c)); [right; reflexivity|].
  set (B := match c_last_nrs c with [] => _ | _ => _ end).
  assert (HB : B = Ok false \/ B = Ok true).
  { subst B. destruct (c_last_nrs c) as [|q l]; auto.
    rewrite (py_last_ok (q :: l) 0%Q) by discriminate. cbn [bind].
    destruct (Qltb (last (q :: l) 0%Q) (inject_Z n)); auto. }
  destruct HB as [-> | ->]; cbn [bind]; [|right; reflexivity].
  rewrite Hb. destruct (c_ato c) as [a|].
  - match goal with |- context [Qltb now ?x] => destruct (Qltb now x) end;
      cbn [bind]; [right; reflexivity|].
    match goal with |- context [Qltb ?x now] => destruct (Qltb x now) end;
      cbn [bind]; [right; reflexivity|].
    rewrite loop_position_spec by auto. left. eexists. reflexivity.
  - cbn [bind]. rewrite loop_position_spec by auto. left. eexists. reflexivity.
Qed.

Definition ex_thumb_c : config := Eval vm_compute in
  match ex_cfg ["testpic"; "V1"; "100.jpg"]%string 610
  with Ok c => c | Err _ => config_init "" end.

(** The claim "refused with a proper error response" is false. *)
Lemma C55_thumbnail_error_reply_refuted_pf : exists c now,
  wf_cfg c /\ c_ext c = ".jpg"%string /\ c_reps c <> [] /\ request_nr c = Ok 100 /\
  ~ available c 100 now /\ get_media c now = Err "TypeError: error_response".
Proof.
  exists ex_thumb_c, 600%Q. split; [|split; [|split; [|split; [|split]]]].
  - constructor; try reflexivity. exists 300. reflexivity.
    intros H. exfalso. apply H. reflexivity.
  - reflexivity.
  - discriminate.
  - reflexivity.
  - intros (_ & _ & K). unfold in_time in K. cbn in K. destruct K as (K & _).
    apply (proj2 (Qleb_true _ _)) in K. vm_compute in K. discriminate.
  - vm_compute. reflexivity.
Qed.

(** With a time offset the two address different media: thumbnails ignore it. *)
Lemma C55_thumbnail_timeoffset_refuted_pf : exists parts1 parts2 now sv,
  parts1 = ["start_600"; "timeoffset_300"; "testpic"; "V1"; "60.m4s"]%string /\
  parts2 = ["start_600"; "timeoffset_300"; "testpic"; "V1"; "60.jpg"]%string /\
  ex_get parts1 now = Ok (Serve sv) /\
  ex_get parts2 now = Err "TypeError: error_response".
Proof.
  exists ["start_600"; "timeoffset_300"; "testpic"; "V1"; "60.m4s"]%string,
         ["start_600"; "timeoffset_300"; "testpic"; "V1"; "60.jpg"]%string, 670%Q.
  eexists. split; [reflexivity|]. split; [reflexivity|]. vm_compute. auto.
Qed.

(** ** C49: up/down schedule of a simulated base URL *)

Lemma in_zrange : forall n x, In x (zrange n) <-> 0 <= x < n.
Proof.
  intros n x. unfold zrange. rewrite in_map_iff. split.
  - intros (k & <- & H). apply in_seq in H. lia.
  - intros H. exists (Z.to_nat x). split; [lia|]. apply in_seq. lia.
Qed.

Lemma nr_loops_bound : forall T m, 0 < T -> 0 <= m < 60 -> m / T < nr_updown_loops T.
Proof.
  intros T m HT Hm. unfold nr_updown_loops.
  assert (m / T <= 59 / T) by (apply Z.div_le_mono; lia).
  assert (59 / T < - (-60 / T)); [|lia].
  assert (A := Z.div_mod 59 T ltac:(lia)). assert (B := Z.mod_pos_bound 59 T HT).
  assert (C := Z.div_mod (-60) T ltac:(lia)). assert (D := Z.mod_pos_bound (-60) T HT).
  nia.
Qed.

(** Second [m] of the minute lies in a down interval: with a period of X up (or
    down) seconds followed by Y others the seconds are counted from 1. *)
Definition ud_is_down (X Y m : Z) : Prop := 1 <= m /\ X <= (m - 1) mod (X + Y).
Definition du_is_down (X Y m : Z) : Prop := 1 <= m /\ (m - 1) mod (X + Y) < X.

Lemma div_mod_interval : forall T m X, 0 < T -> 1 <= m ->
  X <= (m - 1) mod T -> 0 <= X ->
  (m - 1) / T * T + X < m <= ((m - 1) / T + 1) * T.
Proof.
  intros. assert (A := Z.div_mod (m - 1) T ltac:(lia)).
  assert (B := Z.mod_pos_bound (m - 1) T ltac:(lia)). nia.
Qed.

Lemma interval_unique : forall T m i r, 0 < T -> m - 1 = i * T + r -> 0 <= r < T ->
  i = (m - 1) / T /\ r = (m - 1) mod T.
Proof.
  intros T m i r HT E R. split.
  - apply Z.div_unique_pos with (r := r); lia.
  - apply Z.mod_unique_pos with (q := i); lia.
Qed.

Lemma zrange_sorted : forall n, StronglySorted Z.lt (zrange n).
Proof.
  intros n. unfold zrange. generalize (Z.to_nat n) as k. intros k.
  assert (G : forall k s, StronglySorted Z.lt (map Z.of_nat (seq s k))).
  { clear. induction k; intros s; simpl; constructor; auto.
    apply Forall_forall. intros x Hx. apply in_map_iff in Hx. destruct Hx as (j & <- & Hj).
    apply in_seq in Hj. lia. }
  apply G.
Qed.

Lemma ud_loop_down : forall c now X Y m is resp,
  0 <= X -> 0 <= Y -> 0 < X + Y -> ud_is_down X Y m ->
  In ((m - 1) / (X + Y)) is -> StronglySorted Z.lt is ->
  ud_loop c now m X (X + Y) is resp = Ok (Some (Refuse RServerDown)).
Proof.
  intros c now X Y m is. induction is as [|i is IH]; intros resp HX HY HT (M1 & M2) HI HN.
  - destruct HI.
  - cbn [ud_loop].
    destruct ((i * (X + Y) + X <? m) && (m <=? (i + 1) * (X + Y))) eqn:E; [reflexivity|].
    assert (D := div_mod_interval (X + Y) m X HT M1 M2 HX).
    destruct HI as [HI|HI]; [subst i; lia|].
    inversion HN as [|? ? HN1 HN2]; subst.
    destruct (Z.eqb_spec m (i * (X + Y) + X)) as [K|K].
    + exfalso. rewrite Forall_forall in HN2. apply HN2 in HI.
      set (q := (m - 1) / (X + Y)) in *.
      assert ((i + 1) * (X + Y) <= q * (X + Y)) by (apply Z.mul_le_mono_nonneg_r; lia). lia.
    + apply IH; auto. split; auto.
Qed.

Lemma ud_loop_up : forall c now X Y m is resp,
  0 <= X -> 0 <= Y -> 0 < X + Y -> 0 <= m -> ~ ud_is_down X Y m ->
  (forall i, In i is -> 0 <= i) ->
  (forall i, In i is -> m <> i * (X + Y) + X) ->
  ud_loop c now m X (X + Y) is resp = Ok resp.
Proof.
  intros c now X Y m is. induction is as [|i is IH]; intros resp HX HY HT Hm HU HI HN; auto.
  cbn [ud_loop].
  destruct ((i * (X + Y) + X <? m) && (m <=? (i + 1) * (X + Y))) eqn:E.
  - exfalso. apply HU. assert (0 <= i) by (apply HI; left; auto).
    assert (E1 : i * (X + Y) + X < m) by lia. assert (E2 : m <= (i + 1) * (X + Y)) by lia.
    assert (0 <= i * (X + Y)) by nia.
    split; [lia|].
    destruct (interval_unique (X + Y) m i (m - 1 - i * (X + Y))) as (_ & <-); lia.
  - destruct (Z.eqb_spec m (i * (X + Y) + X)) as [K|K].
    + exfalso. apply (HN i); [left; auto|auto].
    + apply IH; auto.
      * intros j Hj. apply HI. right. auto.
      * intros j Hj. apply HN. right. auto.
Qed.

(** The last up second before down time: the segment is processed with the
    end-of-segment event message. *)
Lemma ud_loop_last : forall c now X Y m is resp r,
  0 <= X -> 0 <= Y -> 0 < X + Y -> 0 <= m ->
  (forall i, In i is -> 0 <= i) ->
  (exists i, In i is /\ m = i * (X + Y) + X) ->
  ~ ud_is_down X Y m ->
  process_media_segment (set_emsg_last true c) now = Ok r ->
  ud_loop c now m X (X + Y) is resp = Ok (Some r).
Proof.
  intros c now X Y m is. induction is as [|i is IH]; intros resp r HX HY HT Hm HP HI HU HR.
  - destruct HI as (i & [] & _).
  - cbn [ud_loop].
    destruct ((i * (X + Y) + X <? m) && (m <=? (i + 1) * (X + Y))) eqn:E.
    { exfalso. apply HU. assert (0 <= i) by (apply HP; left; auto).
      assert (0 <= i * (X + Y)) by nia.
      split; [lia|].
      destruct (interval_unique (X + Y) m i (m - 1 - i * (X + Y))) as (_ & <-); lia. }
    destruct (Z.eqb_spec m (i * (X + Y) + X)) as [K|K].
    + rewrite HR. cbn [bind].
      destruct (in_dec Z.eq_dec i is) as [Hin|Hout].
      * apply IH; auto.
        -- intros j Hj. apply HP. right. auto.
        -- exists i. auto.
      * rewrite ud_loop_up; auto.
        -- intros j Hj. apply HP. right. auto.
        -- intros j Hj Kj. assert (i * (X + Y) = j * (X + Y)) by lia.
           apply Z.mul_reg_r in H; [subst; contradiction|lia].
    + apply IH; auto.
      * intros j Hj. apply HP. right. auto.
      * destruct HI as (j & [Hj|Hj] & Ej); [subst; congruence|]. exists j. auto.
Qed.

Lemma du_down_spec : forall X Y m, 0 <= X -> 0 <= Y -> 0 < X + Y -> 0 <= m < 60 ->
  du_down m X (X + Y) (zrange (nr_updown_loops (X + Y))) = true <-> du_is_down X Y m.
Proof.
  intros X Y m HX HY HT Hm. unfold du_down. rewrite existsb_exists. split.
  - intros (i & Hi & K). apply in_zrange in Hi.
    assert (0 <= i * (X + Y)) by nia. split; [lia|].
    destruct (interval_unique (X + Y) m i (m - 1 - i * (X + Y))) as (_ & <-); lia.
  - intros (M1 & M2). exists ((m - 1) / (X + Y)). split.
    + apply in_zrange. split; [apply Z.div_pos; lia|].
      apply nr_loops_bound; lia.
    + assert (A := Z.div_mod (m - 1) (X + Y) ltac:(lia)).
      assert (B := Z.mod_pos_bound (m - 1) (X + Y) ltac:(lia)). nia.
Qed.

Definition session_open (c : config) (now : Q) : Prop :=
  c_ext c = ".m4s"%string /\ session_started c now /\ session_not_over c now.

Lemma get_media_open : forall c now, session_open c now -> get_media c now = get_m4s c now.
Proof.
  intros c now (X & S & N). unfold get_media. rewrite X.
  change (negb (str_in ".m4s" [".m4s"%string; ".jpg"%string])) with false. cbv iota.
  rewrite (proj2 (first_segment_ast_spec c now)) by auto.
  rewrite (proj2 (aet_spec c now)) by auto. reflexivity.
Qed.

(** baseurl_uX_dY: refused exactly in the down seconds of the minute, otherwise
    handled normally (with an extra event message in the last up second). *)
Lemma C49_up_down_pf : forall c now u X Y,
  session_open c now -> c_multi_url c = [u] ->
  parse_updown u = Ok (("u"%char, X), ("d"%char, Y)) ->
  0 <= X -> 0 <= Y -> 0 < X + Y ->
  let m := py_int_of_Q now mod 60 in
  (ud_is_down X Y m -> get_media c now = Ok (Refuse RServerDown)) /\
  (~ ud_is_down X Y m ->
     let last_up := X <= m /\ (X + Y | m - X) in
     (~ last_up -> get_media c now = process_media_segment c now) /\
     (last_up -> forall r, process_media_segment (set_emsg_last true c) now = Ok r ->
                 get_media c now = Ok r)).
Proof.
  intros c now u X Y HO HU HP HX HY HT m.
  assert (Hm : 0 <= m < 60) by (apply Z.mod_pos_bound; lia).
  rewrite get_media_open by auto. unfold get_m4s. rewrite HU, HP. cbn [bind].
  destruct (Z.eqb_spec (X + Y) 0); [lia|].
  change (Ascii.eqb "u" "u") with true. change (Ascii.eqb "d" "d") with true. cbn [andb].
  fold m. set (is := zrange (nr_updown_loops (X + Y))).
  assert (Pos : forall i, In i is -> 0 <= i) by (intros i Hi; apply in_zrange in Hi; lia).
  split; [|split].
  - intros HD. rewrite ud_loop_down; auto.
    + apply in_zrange. destruct HD as (M1 & M2). split; [apply Z.div_pos; lia|].
      apply nr_loops_bound; lia.
    + apply zrange_sorted.
  - intros HL. rewrite ud_loop_up; auto; try lia.
    intros i Hi K. apply HL. apply Pos in Hi. split; [nia|]. exists i. lia.
  - intros (L1 & (i & L2)) r HR. rewrite (ud_loop_last c now X Y m is None r); auto; try lia.
    exists i. split; [|lia]. apply in_zrange.
    assert (0 <= i) by nia. split; auto.
    assert (i <= m / (X + Y)) by (apply Z.div_le_lower_bound; lia).
    assert (N := nr_loops_bound (X + Y) m HT Hm). lia.
Qed.
Example ex_ud :
  let p := ["baseurl_u20_d10"; "testpic"; "V1"; "100.m4s"]%string in
  ex_get p 620 = Ok (Serve (mkServed 101 100 0 false 600 true)) /\
  ex_get p 621 = Ok (Refuse RServerDown) /\
  ex_get p 630 = Ok (Refuse RServerDown) /\
  ex_get p 631 = Ok (Serve (mkServed 101 100 0 false 600 false)).
Proof. vm_compute. auto. Qed.

(** baseurl_dX_uY. *)
Lemma C49_down_up_pf : forall c now u X Y,
  session_open c now -> c_multi_url c = [u] ->
  parse_updown u = Ok (("d"%char, X), ("u"%char, Y)) ->
  0 <= X -> 0 <= Y -> 0 < X + Y ->
  let m := py_int_of_Q now mod 60 in
  (du_is_down X Y m -> get_media c now = Ok (Refuse RServerDown)) /\
  (~ du_is_down X Y m -> get_media c now = process_media_segment c now).
Proof.
  intros c now u X Y HO HU HP HX HY HT m.
  assert (Hm : 0 <= m < 60) by (apply Z.mod_pos_bound; lia).
  rewrite get_media_open by auto. unfold get_m4s. rewrite HU, HP. cbn [bind].
  destruct (Z.eqb_spec (X + Y) 0); [lia|].
  change (Ascii.eqb "d" "u") with false. change (Ascii.eqb "u" "d") with false.
  change (Ascii.eqb "u" "u") with true. change (Ascii.eqb "d" "d") with true. cbn [andb bind].
  fold m. assert (S := du_down_spec X Y m HX HY HT Hm).
  destruct (du_down m X (X + Y) (zrange (nr_updown_loops (X + Y)))).
  - split; auto. intros K. exfalso. apply K. apply S. auto.
  - split; auto. intros K. apply S in K. discriminate.
Qed.
Example ex_du :
  let p := ["baseurl_d20_u10"; "testpic"; "V1"; "100.m4s"]%string in
  ex_get p 620 = Ok (Refuse RServerDown) /\
  ex_get p 621 = Ok (Serve (mkServed 101 100 0 false 600 false)).
Proof. vm_compute. auto. Qed.

(** Finding: second 0 of every minute is never down, so when Y > 0 and X + Y
    divides 60 the down interval that ends on the minute lasts Y - 1 seconds only:
    the announced schedule (Y seconds down per period) is violated. *)
Lemma C49_minute_wrap_refuted_pf : exists X Y,
  0 < X /\ 0 < Y /\ (X + Y | 60) /\
  (forall m, 1 <= m <= 60 -> ~ ud_is_down X Y m -> (m - 1) mod (X + Y) < X) /\
  ud_is_down X Y 60 /\ ~ ud_is_down X Y (60 mod 60).
Proof.
  exists 20, 10. unfold ud_is_down. split; [lia|]. split; [lia|]. split; [exists 2; lia|].
  split; [|split].
  - intros m Hm K. destruct (Z_lt_ge_dec ((m - 1) mod 30) 20); auto.
    exfalso. apply K. change (20 + 10) with 30. lia.
  - split; [lia|]. vm_compute. discriminate.
  - change (60 mod 60) with 0. lia.
Qed.
Example ex_ud_minute :
  let p := ["baseurl_u20_d10"; "testpic"; "V1"; "100.m4s"]%string in
  ex_get p 659 = Ok (Refuse RServerDown) /\
  ex_get p 660 = Ok (Serve (mkServed 101 100 0 false 600 false)).
Proof. vm_compute. auto. Qed.

(** ** C57: multiplexed requests are timed like single ones *)

(** The decision, source number, offset and lmsg flag do not depend on the list of
    representations: only the numbers matter. *)
Lemma C57_mux_same_timing_partial_pf : forall c dir l now n,
  request_nr c = Ok n -> request_nr (set_rel_path dir (set_reps l c)) = Ok n ->
  c_reps c <> [] -> l <> [] ->
  get_media (set_rel_path dir (set_reps l c)) now = get_media c now.
Proof.
  intros c dir l now n R1 R2 N1 N2.
  set (c' := set_rel_path dir (set_reps l c)) in *.
  assert (S : forall e, process_media_segment (set_emsg_last e c') now =
                        process_media_segment (set_emsg_last e c) now).
  { intros e. unfold process_media_segment.
    change (request_nr (set_emsg_last e c')) with (request_nr c').
    change (request_nr (set_emsg_last e c)) with (request_nr c).
    rewrite R1, R2. cbn [bind].
    change (segment_reply (set_emsg_last e c') now n) with (segment_reply (set_emsg_last e c) now n).
    change (c_reps (set_emsg_last e c')) with l. change (c_reps (set_emsg_last e c)) with (c_reps c).
    destruct (segment_reply (set_emsg_last e c) now n) as [[r|sv]|]; cbn [bind]; auto.
    destruct (c_reps c); [congruence|]. destruct l; [congruence|]. reflexivity. }
  assert (S0 : process_media_segment c' now = process_media_segment c now).
  { unfold process_media_segment. rewrite R1, R2. cbn [bind].
    change (segment_reply c' now n) with (segment_reply c now n).
    change (c_reps c') with l.
    destruct (segment_reply c now n) as [[r|sv]|]; cbn [bind]; auto.
    destruct (c_reps c); [congruence|]. destruct l; [congruence|]. reflexivity. }
  unfold get_media.
  change (c_ext c') with (c_ext c). change (first_segment_ast c') with (first_segment_ast c).
  change (c_aet c') with (c_aet c).
  assert (HM : get_m4s c' now = get_m4s c now).
  { unfold get_m4s. change (c_multi_url c') with (c_multi_url c). rewrite S0.
    destruct (c_multi_url c) as [|u [|]]; auto.
    destruct (parse_updown u) as [((ca & d1) & (cb & d2))|]; cbn [bind]; auto.
    destruct (d1 + d2 =? 0); auto.
    assert (UD : forall is resp,
      ud_loop c' now (py_int_of_Q now mod 60) d1 (d1 + d2) is resp =
      ud_loop c now (py_int_of_Q now mod 60) d1 (d1 + d2) is resp).
    { induction is as [|i is IH]; intros resp; cbn [ud_loop]; auto.
      rewrite S, IH. destruct (_ && _); auto. destruct (_ =? _); auto.
      destruct (process_media_segment (set_emsg_last true c) now); cbn [bind]; auto. }
    rewrite UD. reflexivity. }
  assert (HT : process_thumbnail c' now = process_thumbnail c now).
  { unfold process_thumbnail. rewrite R1, R2. reflexivity. }
  rewrite HM, HT. reflexivity.
Qed.
Example ex_mux :
  ex_get ["testpic"; "A1__V1"; "100.m4s"]%string 610 =
    ex_get ["testpic"; "V1"; "100.m4s"]%string 610 /\
  ex_get ["testpic"; "A1__V1"; "100.m4s"]%string 610 =
    Ok (Serve (mkServed 101 100 0 false 600 false)).
Proof. vm_compute. auto. Qed.

(** Finding: time-addressed requests for multiplexed representations always raise
    (no timescale is found for the joint directory name). *)
Lemma C57_mux_time_addressing_refuted_pf : exists parts now sv,
  ex_get ["testpic"; "V1"; "t54000000.m4s"]%string now = Ok (Serve sv) /\
  parts = ["testpic"; "V1__A1"; "t54000000.m4s"]%string /\ ex_get parts now = Err "TypeError".
Proof.
  exists ["testpic"; "V1__A1"; "t54000000.m4s"]%string, 610%Q. eexists. vm_compute. auto.
Qed.

(** ** C29: time addressing *)

Lemma py_round_near : forall q k,
  (inject_Z k - (1#2) < q)%Q -> (q < inject_Z k + (1#2))%Q -> py_round q = k.
Proof.
  intros q k H1 H2. unfold py_round.
  assert (F : Qfloor q = k \/ Qfloor q = k - 1).
  { assert (k - 1 <= Qfloor q).
    { apply (proj2 (Qfloor_iff _ _)). rewrite inject_Z_minus.
      change (inject_Z 1) with 1%Q. lra. }
    assert (Qfloor q < k + 1).
    { apply (proj2 (Qfloor_lt_iff _ _)). rewrite inject_Z_plus.
      change (inject_Z 1) with 1%Q. lra. }
    lia. }
  destruct F as [-> | ->].
  - destruct (Qltb (q - inject_Z k) (1#2)) eqn:E; auto. qb. lra.
  - destruct (Qltb (q - inject_Z (k - 1)) (1#2)) eqn:E; qb;
      rewrite inject_Z_minus in *; change (inject_Z 1) with 1%Q in *; [lra|].
    destruct (Qltb (1#2) (q - (inject_Z k - 1))) eqn:E2.
    + assert (E3 : Qltb (1#2) (q - inject_Z (k - 1)) = true).
      { apply (proj2 (Qltb_true _ _)). apply (proj1 (Qltb_true _ _)) in E2.
        rewrite inject_Z_minus. change (inject_Z 1) with 1%Q. lra. }
      rewrite E3. lia.
    + qb. lra.
Qed.

(** Text "t<T>" for a non-negative integer T. *)
Lemma parse_plain_digits : forall s acc n, all_digits s = true ->
  parse_plain s acc n = Some (digits_val s acc, (n + String.length s)%nat).
Proof.
  induction s as [|c s IH]; intros acc n H; simpl in *.
  - f_equal. f_equal. lia.
  - destruct (digit_val c); [|discriminate]. rewrite IH by auto. f_equal. f_equal. lia.
Qed.

Lemma split_first_none : forall s, all_digits s = true -> split_first "." s = None.
Proof.
  induction s as [|c s IH]; simpl; intros H; auto.
  destruct (digit_val c) eqn:E; [|discriminate].
  destruct (digit_val_not_sign _ _ E) as (_ & _ & _ & N & _).
  destruct (Ascii.eqb_spec c "."); [congruence|]. rewrite IH by auto. reflexivity.
Qed.

Lemma py_float_print_nat : forall n, 0 <= n -> exists q, py_float (print_nat n) = Ok q /\ (q == inject_Z n)%Q.
Proof.
  intros n H. destruct (print_nat_spec n H) as (A & B & C).
  unfold py_float.
  assert (Hp : parse_ufloat (print_nat n) = Some (inject_Z n + (0#1))%Q).
  { unfold parse_ufloat. rewrite split_first_none by auto.
    rewrite parse_plain_digits by auto. cbn [parse_plain].
    rewrite B. destruct (print_nat n); [congruence|]. reflexivity. }
  destruct (print_nat n) as [|c s] eqn:E; [congruence|].
  simpl in A. destruct (digit_val c) eqn:Ec; [|discriminate].
  destruct (digit_val_not_sign _ _ Ec) as (N1 & N2 & _).
  exists (inject_Z n + (0#1))%Q. split.
  - assert (Hm : match String c s with
               | String "-" t => option_map Qopp (parse_ufloat t)
               | String "+" t => parse_ufloat t
               | _ => parse_ufloat (String c s)
               end = parse_ufloat (String c s)).
    { destruct c as [[] [] [] [] [] [] [] []]; try reflexivity;
      exfalso; (apply N1; reflexivity) || (apply N2; reflexivity). }
    rewrite Hm, Hp. reflexivity.
  - change (0#1)%Q with 0%Q. lra.
Qed.

Lemma splitext_ext : forall s e, (forall c, In c (list_ascii_of_string s) -> c <> "."%char) ->
  s <> EmptyString -> (forall c, In c (list_ascii_of_string e) -> c <> "."%char) ->
  splitext (s ++ String "." e) = (s, String "." e).
Proof.
  intros s e H N He. unfold splitext.
  assert (L0 : split_last_dot (String "." e) = Some (EmptyString, String "." e)).
  { simpl. assert (K : split_last_dot e = None).
    { clear - He. induction e as [|c e IH]; auto. simpl in *.
      rewrite IH by (intros; apply He; auto).
      destruct (Ascii.eqb_spec c "."); auto. exfalso. apply (He c); auto. }
    rewrite K. reflexivity. }
  assert (L : split_last_dot (s ++ String "." e) = Some (s, String "." e)).
  { clear N. induction s as [|c s IH]; auto. simpl.
    simpl in H. rewrite IH by (intros; apply H; auto). reflexivity. }
  rewrite L.
  destruct s as [|c s]; [congruence|]. simpl.
  destruct (Ascii.eqb_spec c "."); auto. exfalso. apply (H c); simpl; auto.
Qed.

Lemma all_digits_no_dot : forall s c, all_digits s = true -> In c (list_ascii_of_string s) -> c <> "."%char.
Proof.
  induction s as [|a s IH]; simpl; intros c H K; [destruct K|].
  destruct K as [K|K]; subst.
  - destruct (digit_val c) eqn:E; [|discriminate]. apply (digit_val_not_sign _ _ E).
  - destruct (digit_val a); [|discriminate]. apply IH; auto.
Qed.

(** A request t<T>.m4s with T within half a segment of the nominal start of
    segment k names segment k. *)
Lemma C29_time_addressing_pf : forall c T k ts,
  0 <= T -> c_filename c = ("t" ++ print_nat T ++ ".m4s")%string ->
  get_timescale (c_rel_path c) (c_reps c) = Some ts ->
  0 < c_seg_dur c -> 0 < ts ->
  Z.abs (2 * T - 2 * k * c_seg_dur c * ts) < c_seg_dur c * ts ->
  request_nr c = Ok k.
Proof.
  intros c T k ts HT HF HTS Hd Hts HA.
  destruct (print_nat_spec T HT) as (A & B & C).
  unfold request_nr. rewrite HF.
  assert (S : splitext ("t" ++ print_nat T ++ ".m4s") = (String "t" (print_nat T), ".m4s"%string)).
  { change ("t" ++ print_nat T ++ ".m4s")%string with
      ((String "t" (print_nat T)) ++ String "." "m4s")%string.
    apply splitext_ext.
    - simpl. intros x [<-|Hx]; [discriminate|]. eapply all_digits_no_dot; eauto.
    - discriminate.
    - simpl. intros x [<-|[<-|[<-|[]]]]; discriminate. }
  rewrite S. cbn [fst]. rewrite HTS.
  destruct (py_float_print_nat T HT) as (q & -> & Hq). cbn [bind].
  destruct (Z.eqb_spec (c_seg_dur c) 0); [lia|]. destruct (Z.eqb_spec ts 0); [lia|].
  f_equal.
  set (D := c_seg_dur c * ts).
  assert (HD : 0 < D) by (apply Z.mul_pos_pos; auto).
  assert (HDq : (0 < inject_Z D)%Q) by (change 0%Q with (inject_Z 0); apply (proj2 (inject_Z_lt _ _)); auto).
  assert (E : (q / inject_Z (c_seg_dur c) / inject_Z ts == inject_Z T / inject_Z D)%Q).
  { unfold D. rewrite inject_Z_mult, Hq. field. split.
    - intros K. change 0%Q with (inject_Z 0) in K. apply (proj1 (inject_Z_eq _ _)) in K. lia.
    - intros K. change 0%Q with (inject_Z 0) in K. apply (proj1 (inject_Z_eq _ _)) in K. lia. }
  assert (EDk : 2 * k * c_seg_dur c * ts = 2 * (k * D)) by (unfold D; ring).
  rewrite EDk in HA. fold D in HA.
  assert (R1 : (inject_Z (2 * T) < inject_Z (2 * (k * D) + D))%Q)
    by (apply (proj2 (inject_Z_lt _ _)); lia).
  assert (R2 : (inject_Z (2 * (k * D) - D) < inject_Z (2 * T))%Q)
    by (apply (proj2 (inject_Z_lt _ _)); lia).
  rewrite !inject_Z_minus, !inject_Z_plus, !inject_Z_mult in *. change (inject_Z 2) with 2%Q in *.
  apply py_round_near; rewrite E.
  - apply Qlt_shift_div_l; auto. lra.
  - apply Qlt_shift_div_r; auto. lra.
Qed.
Example ex_time : forall c, c = ex_c ->
  request_nr (set_filename "t1080123.m4s" c) = Ok 2 /\
  Z.abs (2 * 1080123 - 2 * 2 * 6 * 90000) < 6 * 90000.
Proof. intros c ->. vm_compute. auto. Qed.

(** The number form n.m4s names n. *)
Lemma C29_number_addressing_pf : forall c n, 0 <= n ->
  c_filename c = (print_nat n ++ ".m4s")%string -> request_nr c = Ok n.
Proof.
  intros c n Hn HF. destruct (print_nat_spec n Hn) as (A & B & C).
  unfold request_nr. rewrite HF.
  change (print_nat n ++ ".m4s")%string with (print_nat n ++ String "." "m4s")%string.
  rewrite splitext_ext; auto.
  - cbn [fst]. rewrite <- (py_int_print_nat n Hn).
    destruct (print_nat n) as [|c0 s]; [congruence|].
    simpl in A. destruct (digit_val c0) eqn:E; [|discriminate].
    destruct (digit_val_not_sign _ _ E) as (_ & _ & _ & _ & N).
    destruct c0 as [[] [] [] [] [] [] [] []]; try reflexivity. exfalso. apply N. reflexivity.
  - intros x Hx. eapply all_digits_no_dot; eauto.
  - simpl. intros x [<-|[<-|[<-|[]]]]; discriminate.
Qed.
