(** Multi-period manifests and the number addressing of manifests: properties
    C23, C24, C25 and C56. *)
From Coq Require Import Lqa ZifyBool ZifyNat Znumtheory.
From Verif Require Import Base BaseProofs ConfigModel ProxyModel ProxySpec ProxyProofs ProxyTheory Proxy2Theory
  ConfigProofs ConfigTheory SessionProofs PeriodModel PeriodSpec PeriodProofs.
Open Scope Z_scope.

(** The configuration of a manifest URL with the given options. *)
Definition ex_mpd (opts : list string) (now : Z) : config :=
  match ex_cfg (List.app opts ["testpic"; "Manifest.mpd"]%string) now with Ok c => c | Err _ => config_init "" end.
Definition ex_periods (opts : list string) (now : Z) : list pdata :=
  match generate_period_data (ex_mpd opts now) 0 0 now with Ok (_, l) => l | Err _ => [] end.

(** ** C23: the periods tile the time-shift window. *)
Lemma nth_last : forall {A} (l : list A) d, nth_error l (List.length l - 1) = (match l with [] => None | _ => Some (last l d) end).
Proof.
  intros A. induction l as [|a [|b l] IH]; intros d; [reflexivity|reflexivity|].
  specialize (IH d). cbn [List.length] in *. 
  replace (S (S (List.length l)) - 1)%nat with (S (S (List.length l) - 1)) by lia. cbn [nth_error]. exact IH.
Qed.

Lemma C23_tiling_partial_pf : forall c sn pto now n pd b mup l,
  multi c n pd -> c_tsbd c = Some b -> 0 <= b -> 0 < c_seg_dur c -> c_ast c = 0 ->
  generate_period_data c sn pto now = Ok (mup, l) ->
  exists p0 rest, l = p0 :: rest /\
  (* consecutive: each starts where the one before it ends *)
  (forall i p q, nth_error l i = Some p -> nth_error l (S i) = Some q -> pd_start_s q = pd_start_s p + pd) /\
  (* the attribute written is that start *)
  (forall p, In p l -> pd_start p = ("PT" ++ print_Z (pd_start_s p) ++ "S")%string) /\
  (* the first one holds now - tsbd - d, the last one now + half a period *)
  c_ast c + pd_start_s p0 <= now - b - c_seg_dur c < c_ast c + pd_start_s p0 + pd /\
  c_ast c + pd_start_s (last l p0) <= now + pd / 2 < c_ast c + pd_start_s (last l p0) + pd /\
  NoDup (map pd_id l) /\
  (* nominal duration unless terminated early *)
  (forall i p, nth_error l i = Some p -> (S i < List.length l)%nat ->
     pd_period_duration_s p = Some pd \/ exists e, pd_etp p = Some e /\ pd_period_duration_s p = Some e).
Proof.
  intros c sn pto now n pd b mup l M Hb Hb0 Hd Hast H.
  destruct (generate_nth _ _ _ _ _ _ _ _ _ M Hb Hd H) as (Len & F).
  destruct (multi_min _ _ _ M) as (_ & _ & Hpd & Hn).
  set (first := (now - b - c_seg_dur c) / pd) in *.
  set (lst := (now + pd / 2) / pd) in *.
  assert (B1 : first * pd <= now - b - c_seg_dur c < first * pd + pd).
  { unfold first. pose proof (Z.div_mod (now - b - c_seg_dur c) pd ltac:(lia)).
    pose proof (Z.mod_pos_bound (now - b - c_seg_dur c) pd Hpd). lia. }
  assert (B2 : lst * pd <= now + pd / 2 < lst * pd + pd).
  { unfold lst. pose proof (Z.div_mod (now + pd / 2) pd ltac:(lia)).
    pose proof (Z.mod_pos_bound (now + pd / 2) pd Hpd). lia. }
  assert (0 <= pd / 2) by (apply Z.div_pos; lia).
  assert (first <= lst) by (apply Z.div_le_mono; lia).
  destruct l as [|p0 rest]; [cbn in Len; lia|]. exists p0, rest. split; [reflexivity|].
  set (l := p0 :: rest) in *.
  split.
  { intros i p q Hp Hq. destruct (F i p Hp) as (_ & _ & _ & _ & -> & _). destruct (F (S i) q Hq) as (_ & _ & _ & _ & -> & _). lia. }
  split.
  { intros p Hp. apply In_nth_error in Hp. destruct Hp as (i & Hp).
    destruct (F i p Hp) as (_ & -> & _ & _ & -> & _). reflexivity. }
  split.
  { destruct (F 0%nat p0 eq_refl) as (_ & _ & _ & _ & -> & _). rewrite Hast. lia. }
  split.
  { pose proof (nth_last l p0) as NL. unfold l in NL at 3. cbv iota in NL. 
    destruct (F _ _ NL) as (_ & _ & _ & _ & -> & _).
    replace (first + Z.of_nat (List.length l - 1)) with lst by lia. rewrite Hast. lia. }
  split.
  { apply NoDup_nth_error. intros i j Hi E. rewrite map_length in Hi.
    rewrite !nth_error_map in E.
    destruct (nth_error l i) as [p|] eqn:Ep; [|apply nth_error_None in Ep; lia].
    destruct (nth_error l j) as [q|] eqn:Eq; [|discriminate]. cbn [option_map] in E. injection E as E.
    destruct (F i p Ep) as (E1 & _). destruct (F j q Eq) as (E2 & _).
    rewrite E1, E2 in E. change ("p" ++ print_Z (first + Z.of_nat i))%string with (String "p" (print_Z (first + Z.of_nat i))) in E.
    change ("p" ++ print_Z (first + Z.of_nat j))%string with (String "p" (print_Z (first + Z.of_nat j))) in E.
    injection E as E. apply print_Z_inj in E. lia. }
  intros i p Hp Hi. destruct (F i p Hp) as (_ & _ & _ & _ & _ & _ & _ & K). exact (K Hi).
Qed.
(* 60 periods per hour, 60 s shift buffer, every second period terminated early. *)
Example ex_tiling :
  let c := ex_mpd ["periods_60"; "etp_30"; "tsbd_60"]%string 1000500 in
  multi c 60 60 /\ c_tsbd c = Some 60 /\ c_ast c = 0 /\
  map (fun p => (pd_id p, pd_start_s p, pd_period_duration_s p)) (ex_periods ["periods_60"; "etp_30"; "tsbd_60"]%string 1000500) =
  [("p16673", 1000380, Some 60); ("p16674", 1000440, Some 30); ("p16675", 1000500, None)]%string.
Proof. vm_compute. repeat split; try congruence. left. reflexivity. Qed.

(** With a start time the period starts, which are relative to the availability
    start time, are still computed from the epoch: every announced period lies
    in the future. *)
Lemma C23_start_time_refuted_pf : exists c n pd b mup l now,
  multi c n pd /\ c_tsbd c = Some b /\ 0 <= b /\ 0 < c_seg_dur c /\ c_ast c <= now - b - c_seg_dur c /\
  generate_period_data c 0 0 now = Ok (mup, l) /\ l <> [] /\ forall p, In p l -> now < c_ast c + pd_start_s p.
Proof.
  set (c := ex_mpd ["periods_60"; "start_100000"; "tsbd_60"]%string 1000500).
  set (l := ex_periods ["periods_60"; "start_100000"; "tsbd_60"]%string 1000500).
  assert (M : multi c 60 60). { vm_compute. repeat split; try congruence. left. reflexivity. }
  assert (B : c_tsbd c = Some 60) by (vm_compute; reflexivity).
  assert (D : c_seg_dur c = 6) by (vm_compute; reflexivity).
  assert (A : c_ast c = 99996) by (vm_compute; reflexivity).
  assert (G : generate_period_data c 0 0 1000500 = Ok (Some "PT25S"%string, l)) by (vm_compute; reflexivity).
  assert (E : map pd_start_s l = [1000380; 1000440; 1000500]) by (vm_compute; reflexivity).
  clearbody c l.
  exists c, 60, 60, 60, (Some "PT25S"%string), l, 1000500. rewrite A, D.
  do 2 (split; [assumption|]). do 3 (split; [lia|]). split; [assumption|].
  split; [intros K; rewrite K in E; discriminate|].
  intros p Hp. apply (in_map pd_start_s) in Hp. rewrite E in Hp. cbn [In] in Hp. lia.
Qed.

(** ** C24: start numbers. *)
Lemma C24_aligned_partial_pf : forall c sn pto now n pd b mup l,
  multi c n pd -> c_tsbd c = Some b -> 0 < c_seg_dur c -> (c_seg_dur c | pd) ->
  c_ast c = 0 -> c_start_nr c = 0 -> whole_offset c ->
  generate_period_data c sn pto now = Ok (mup, l) ->
  (forall p, In p l -> exists k, pd_start_number p = print_Z k /\
     media_start c k = pd_start_s p /\ pd_pto p = PInt (pd_start_s p) /\
     seg_end c k = c_ast c + pd_start_s p + c_seg_dur c + offset_s c) /\
  (forall i p q k k', nth_error l i = Some p -> nth_error l (S i) = Some q ->
     pd_start_number p = print_Z k -> pd_start_number q = print_Z k' -> (k' - k) * c_seg_dur c = pd).
Proof.
  intros c sn pto now n pd b mup l M Hb Hd (j & Hj) Hast Hsnr Hto H.
  destruct (generate_nth _ _ _ _ _ _ _ _ _ M Hb Hd H) as (Len & F).
  set (first := (now - b - c_seg_dur c) / pd) in *.
  assert (Q : forall nr, nr * pd / c_seg_dur c = nr * j).
  { intros nr. rewrite Hj, Z.mul_assoc. apply Z.div_mul. lia. }
  split.
  - intros p Hp. apply In_nth_error in Hp. destruct Hp as (i & Hp).
    destruct (F i p Hp) as (_ & _ & -> & -> & -> & _). rewrite Q.
    exists ((first + Z.of_nat i) * j). split; [reflexivity|].
    unfold media_start, seg_end, media_time_at_ast, first_nr, offset_s. rewrite Hsnr, Hast.
    change (0 =? -1) with false. cbv iota. unfold whole_offset in Hto. destruct (c_timeoffset c) as [T|].
    + destruct (Hto T eq_refl) as (z & ->). replace (0 - z * c_seg_dur c) with (- z * c_seg_dur c) by ring.
      rewrite Z.div_mul by lia. rewrite Hj. split; [ring|]. split; [reflexivity|ring].
    + rewrite Hj. split; [ring|]. split; [reflexivity|ring].
  - intros i p q k k' Hp Hq Ek Ek'.
    destruct (F i p Hp) as (_ & _ & E1 & _). destruct (F (S i) q Hq) as (_ & _ & E2 & _).
    rewrite Ek, Q in E1. rewrite Ek', Q in E2. apply print_Z_inj in E1. apply print_Z_inj in E2.
    subst k k'. rewrite Hj. rewrite Nat2Z.inj_succ. ring.
Qed.
Example ex_aligned :
  let c := ex_mpd ["periods_60"]%string 1000500 in
  c_seg_dur c = 6 /\ c_start_nr c = 0 /\ c_timeoffset c = None /\
  map (fun p => (pd_start_s p, pd_start_number p)) (firstn 2 (ex_periods ["periods_60"]%string 1000500)) =
  [(1000140, "166690"); (1000200, "166700")]%string.
Proof. vm_compute. auto. Qed.

(** Without the divisibility: the segment that holds the period start. *)
Lemma C24_containing_partial_pf : forall c sn pto now n pd b mup l p,
  multi c n pd -> c_tsbd c = Some b -> 0 < c_seg_dur c ->
  c_ast c = 0 -> c_start_nr c = 0 -> whole_offset c ->
  generate_period_data c sn pto now = Ok (mup, l) -> In p l ->
  exists k, pd_start_number p = print_Z k /\
    media_start c k <= pd_start_s p < media_start c (k + 1) /\ pd_pto p = PInt (pd_start_s p).
Proof.
  intros c sn pto now n pd b mup l p M Hb Hd Hast Hsnr Hto H Hp.
  destruct (generate_nth _ _ _ _ _ _ _ _ _ M Hb Hd H) as (Len & F).
  set (first := (now - b - c_seg_dur c) / pd) in *.
  apply In_nth_error in Hp. destruct Hp as (i & Hp).
  destruct (F i p Hp) as (_ & _ & -> & -> & -> & _).
  set (s := (first + Z.of_nat i) * pd). exists (s / c_seg_dur c). split; [reflexivity|].
  unfold media_start, media_time_at_ast, first_nr. rewrite Hsnr, Hast. change (0 =? -1) with false. cbv iota.
  split; [|reflexivity].
  pose proof (Z.div_mod s (c_seg_dur c) ltac:(lia)). pose proof (Z.mod_pos_bound s (c_seg_dur c) Hd).
  unfold whole_offset in Hto. destruct (c_timeoffset c) as [T|]; [|rewrite !Z.sub_0_r; lia].
  destruct (Hto T eq_refl) as (z & ->). replace (0 - z * c_seg_dur c) with (- z * c_seg_dur c) by ring. rewrite Z.div_mul by lia. nia.
Qed.
Example ex_offset_periods :
  let c := ex_mpd ["periods_60"; "timeoffset_60"]%string 1000500 in
  whole_offset c /\ offset_s c = 60 /\
  map (fun p => (pd_start_s p, pd_start_number p)) (firstn 1 (ex_periods ["periods_60"; "timeoffset_60"]%string 1000500)) = [(1000140, "166690")]%string /\
  media_start c 166690 = 1000140 /\ seg_end c 166690 = 1000140 + 6 + 60.
Proof.
  cbn zeta. split; [intros T H; vm_compute in H; injection H as <-; exists 10; reflexivity|]. vm_compute. auto.
Qed.
(** With a time offset that is no multiple of the segment duration the segment
    announced starts after the Period start (configprocessor.py 230-236 rounds). *)
Lemma C24_time_offset_refuted_pf : exists c now mup l p k,
  multi c 60 60 /\ (c_seg_dur c | 60) /\ c_ast c = 0 /\ c_start_nr c = 0 /\
  generate_period_data c (c_start_nr c) 0 now = Ok (mup, l) /\ In p l /\
  pd_start_number p = print_Z k /\ pd_start_s p < media_start c k.
Proof.
  set (c := ex_mpd ["periods_60"; "timeoffset_4"]%string 1000500).
  set (l := ex_periods ["periods_60"; "timeoffset_4"]%string 1000500).
  assert (M : multi c 60 60). { vm_compute. repeat split; try congruence. left. reflexivity. }
  assert (D : c_seg_dur c = 6) by (vm_compute; reflexivity).
  assert (A : c_ast c = 0) by (vm_compute; reflexivity).
  assert (T : c_timeoffset c = Some 4) by (vm_compute; reflexivity).
  assert (S : c_start_nr c = 0) by (vm_compute; reflexivity).
  assert (G : generate_period_data c 0 0 1000500 = Ok (Some "PT25S"%string, l)) by (vm_compute; reflexivity).
  assert (E : map (fun p => (pd_start_s p, pd_start_number p)) (firstn 1 l) = [(1000140, "166690"%string)]) by (vm_compute; reflexivity).
  clearbody c l.
  destruct l as [|p l]; [discriminate|]. cbn in E. injection E as E1 E2.
  exists c, 1000500, (Some "PT25S"%string), (p :: l), p, 166690. rewrite S.
  split; [assumption|]. split; [rewrite D; exists 10; reflexivity|]. do 3 (split; [assumption || reflexivity|]).
  split; [left; reflexivity|]. split; [rewrite E2; reflexivity|].
  unfold media_start, media_time_at_ast, first_nr. rewrite T, S, D, E1, A. reflexivity.
Qed.

(** A start number option is ignored by the periods, so the announced number
    denotes other media than the period start. *)
Lemma C24_start_number_refuted_pf : exists c now mup l p k,
  multi c 60 60 /\ (c_seg_dur c | 60) /\ c_ast c = 0 /\ c_timeoffset c = None /\
  generate_period_data c (c_start_nr c) 0 now = Ok (mup, l) /\ In p l /\
  pd_start_number p = print_Z k /\ media_start c k <> pd_start_s p.
Proof.
  set (c := ex_mpd ["periods_60"; "snr_7"]%string 1000500).
  set (l := ex_periods ["periods_60"; "snr_7"]%string 1000500).
  assert (M : multi c 60 60). { vm_compute. repeat split; try congruence. left. reflexivity. }
  assert (D : c_seg_dur c = 6) by (vm_compute; reflexivity).
  assert (A : c_ast c = 0) by (vm_compute; reflexivity).
  assert (T : c_timeoffset c = None) by (vm_compute; reflexivity).
  assert (S : c_start_nr c = 7) by (vm_compute; reflexivity).
  assert (G : generate_period_data c 7 0 1000500 = Ok (Some "PT25S"%string, l)) by (vm_compute; reflexivity).
  assert (E : map (fun p => (pd_start_s p, pd_start_number p)) (firstn 1 l) = [(1000140, "166690"%string)]) by (vm_compute; reflexivity).
  clearbody c l.
  destruct l as [|p l]; [discriminate|]. cbn in E. injection E as E1 E2.
  exists c, 1000500, (Some "PT25S"%string), (p :: l), p, 166690. rewrite S.
  split; [assumption|]. split; [rewrite D; exists 10; reflexivity|]. do 3 (split; [assumption|]).
  split; [left; reflexivity|]. split; [rewrite E2; reflexivity|].
  unfold media_start, media_time_at_ast, first_nr. rewrite T, S, D, E1. discriminate.
Qed.

(** ** C25: period options. *)
Lemma bind_ok : forall {A B} (x : result A) (f : A -> result B) y, bind x f = Ok y -> exists a, x = Ok a /\ f a = Ok y.
Proof. intros A B [a|e] f y H; [eauto|discriminate]. Qed.

Lemma etp_of_spec : forall c n pd nr r, 0 < n ->
  (etp_of c n pd nr = Ok r <->
   (0 < c_etp c -> (Z.min (c_etp c) 60 | n) /\ early_length c pd <= pd) /\
   (selected n (c_etp c) nr -> r = Some (early_length c pd)) /\ (~ selected n (c_etp c) nr -> r = None)).
Proof.
  intros c n pd nr r Hn. unfold etp_of. fold (early_length c pd).
  destruct (Z.ltb_spec 0 (c_etp c)) as [He|He].
  2: { split.
       - intros E. injection E as <-. split; [lia|]. split; [intros (H & _); lia|reflexivity].
       - intros (_ & _ & H). rewrite H; [reflexivity|]. intros (H' & _). lia. }
  assert (Hm : 0 < Z.min (c_etp c) 60) by lia.
  destruct (Zdivide_dec (Z.min (c_etp c) 60) n) as [D|D].
  2: { rewrite quotient_bad by assumption. split; [discriminate|]. intros (H & _). destruct (H He). contradiction. }
  rewrite quotient_ok by assumption. cbn [bind]. destruct D as (k & Hk).
  assert (Ek : n / Z.min (c_etp c) 60 = k) by (rewrite Hk; apply Z.div_mul; lia). rewrite Ek.
  pose proof (selected_test n (c_etp c) k nr Hn He Hk) as S.
  destruct (Z.ltb_spec pd (early_length c pd)) as [L|L].
  { split; [discriminate|]. intros (H & _). destruct (H He). lia. }
  destruct (Z.eqb_spec (nr mod k) 0) as [E|E]; split.
  - intros X. injection X as <-. split; [intros _; split; [exists k; exact Hk|exact L]|]. tauto.
  - intros (_ & H & _). rewrite H; tauto.
  - intros X. injection X as <-. split; [intros _; split; [exists k; exact Hk|exact L]|]. tauto.
  - intros (_ & _ & H). rewrite H; tauto.
Qed.
Lemma callback_of_spec : forall c n nr r, 0 < n ->
  (callback_of c n nr = Ok r <->
   (0 < c_callback c -> (Z.min (c_callback c) 60 | n)) /\ (r = true <-> selected n (c_callback c) nr)).
Proof.
  intros c n nr r Hn. unfold callback_of.
  destruct (Z.ltb_spec 0 (c_callback c)) as [He|He].
  2: { split.
       - intros E. injection E as <-. split; [lia|]. split; [discriminate|]. intros (H & _); lia.
       - intros (_ & H). destruct r; [|reflexivity]. destruct H as (H & _). destruct (H eq_refl). lia. }
  destruct (Zdivide_dec (Z.min (c_callback c) 60) n) as [D|D].
  2: { rewrite quotient_bad by (auto; lia). split; [discriminate|]. intros (H & _). destruct (D (H He)). }
  rewrite quotient_ok by (auto; lia). cbn [bind]. pose proof D as (k & Hk).
  assert (Ek : n / Z.min (c_callback c) 60 = k) by (rewrite Hk; apply Z.div_mul; lia). rewrite Ek.
  pose proof (selected_test n (c_callback c) k nr Hn He Hk) as S. rewrite S.
  split.
  - intros X. injection X as <-. split; [auto|]. apply Z.eqb_eq.
  - intros (_ & H). f_equal. apply Bool.eq_iff_eq_true. rewrite Z.eqb_eq. symmetry. exact H.
Qed.

Lemma C25_accepted_pf : forall c sn pto now b,
  c_tsbd c = Some b -> 0 <= b -> 0 < c_seg_dur c ->
  ((exists r, generate_period_data c sn pto now = Ok r) <->
   (supported (c_pph c) /\ (0 < c_insert_ad c -> c_xlink c <> 0) /\
    forall n pd, multi c n pd ->
      (0 < c_etp c -> (Z.min (c_etp c) 60 | n) /\ early_length c pd <= pd) /\
      (0 < c_callback c -> (Z.min (c_callback c) 60 | n)))).
Proof.
  intros c sn pto now b Hb Hb0 Hd. unfold generate_period_data.
  pose proof (count_allowed_iff (c_pph c)) as CA.
  destruct (count_allowed (Z.min (c_pph c) 60)) eqn:E; cbn [negb].
  2: { split; [intros (r & H); discriminate|]. intros (H & _). destruct CA as (_ & CA). discriminate (CA H). }
  destruct CA as (CA & _). specialize (CA eq_refl).
  assert (AD : (exists ad, (if 0 <? c_insert_ad c then py_div (Z.min (c_pph c) 60) (c_xlink c) else Ok (-1)) = Ok ad)
     <-> (0 < c_insert_ad c -> c_xlink c <> 0)).
  { destruct (Z.ltb_spec 0 (c_insert_ad c)) as [G|G]; [|split; [lia|eauto]].
    unfold py_div. destruct (Z.eqb_spec (c_xlink c) 0) as [G2|G2]; split; intros H; eauto.
    - destruct H; discriminate.
    - exfalso. apply (H G G2). }
  destruct (if 0 <? c_insert_ad c then _ else _) as [ad|] eqn:EAD; cbn [bind].
  2: { split; [intros (r & H); discriminate|]. intros (_ & H & _). apply AD in H. destruct H; discriminate. }
  assert (AD' : 0 < c_insert_ad c -> c_xlink c <> 0) by (apply AD; eauto).
  set (n := Z.min (c_pph c) 60) in *.
  assert (D0 : forall x, py_div x (c_seg_dur c) = Ok (x / c_seg_dur c)).
  { intros x. unfold py_div. destruct (Z.eqb_spec (c_seg_dur c) 0); [lia|reflexivity]. }
  destruct (Z.eqb_spec n (-1)) as [N|N].
  { rewrite D0. cbn [bind]. split; [|eauto]. intros _. do 2 (split; [assumption|]).
    intros n' pd M. destruct (multi_min _ _ _ M) as (K & _). fold n in K. unfold multi in M. lia. }
  destruct (Z.eqb_spec n 0) as [N0|N0].
  { rewrite D0. cbn [bind]. split; [|eauto]. intros _. do 2 (split; [assumption|]).
    intros n' pd M. destruct (multi_min _ _ _ M) as (K & _). fold n in K. unfold multi in M. lia. }
  assert (Hn : 0 < n <= 60). { unfold supported in CA. lia. }
  assert (M : multi c n (3600 / n)).
  { unfold multi. split; [lia|]. split; [|lia].
    assert (D : (n | 60)). { unfold supported in CA. destruct CA as [|[|[G|(G1 & G2)]]]; try lia.
      - replace n with 60 by lia. exists 1. reflexivity.
      - replace n with (c_pph c) by lia. exact G2. }
    destruct D as (k & Hk). replace 3600 with (60 * k * n) by lia. rewrite Z.div_mul by lia. ring. }
  destruct (multi_min _ _ _ M) as (_ & _ & Hpd & _).
  set (pd := 3600 / n) in *. rewrite Hb.
  set (first := (now - b - c_seg_dur c) / pd). set (lst := (now + pd / 2) / pd).
  assert (FL : first <= lst).
  { assert (0 <= pd / 2) by (apply Z.div_pos; lia). apply Z.div_le_mono; lia. }
  assert (One : forall nr, (exists p, one_period c n pd nr = Ok p) <->
    ((0 < c_etp c -> (Z.min (c_etp c) 60 | n) /\ early_length c pd <= pd) /\
      (0 < c_callback c -> (Z.min (c_callback c) 60 | n)))).
  { intros nr. unfold one_period. rewrite D0. cbn [bind]. split.
    - intros (p & H). apply bind_ok in H. destruct H as (e & He & H). apply bind_ok in H. destruct H as (cb & Hc & H).
      apply etp_of_spec in He; [|lia]. apply callback_of_spec in Hc; [|lia]. tauto.
    - intros (He & Hc).
      assert (X : exists e, etp_of c n pd nr = Ok e).
      { destruct (etp_of c n pd nr) as [e|] eqn:EE; eauto. exfalso.
        unfold etp_of in EE. fold (early_length c pd) in EE. destruct (Z.ltb_spec 0 (c_etp c)) as [G|G]; [|discriminate].
        destruct (He G) as (G1 & G2). rewrite quotient_ok in EE by (auto; lia). cbn [bind] in EE.
        destruct (Z.ltb_spec pd (early_length c pd)); [lia|discriminate]. }
      assert (Y : exists e, callback_of c n nr = Ok e).
      { destruct (callback_of c n nr) as [e|] eqn:EE; eauto. exfalso.
        unfold callback_of in EE. destruct (Z.ltb_spec 0 (c_callback c)) as [G|G]; [|discriminate].
        rewrite quotient_ok in EE by (auto; lia). discriminate. }
      destruct X as (e & ->), Y as (cb & ->). cbn [bind]. eauto. }
  split.
  - intros (r & H). apply bind_ok in H. destruct H as (rv & H & _).
    do 2 (split; [assumption|]). intros n' pd' M'.
    destruct (multi_min _ _ _ M') as (K1 & K2 & _). fold n in K1. subst n'. fold pd in K2. subst pd'.
    apply period_loop_core in H. destruct H as (ys & Y & _). apply mapM_ok in Y.
    assert (Z0 : nth_error (zrange first lst) 0 = Some (first + Z.of_nat 0)) by (apply zrange_nth; lia).
    destruct (nth_forall2 _ _ _ _ _ Y Z0) as (y & _ & Hy). apply (One (first + Z.of_nat 0)). eauto.
  - intros (_ & _ & H). specialize (H n pd M).
    assert (T : exists rv, period_loop c n pd ad (zrange first lst) [] = Ok rv).
    { apply period_loop_total. apply mapM_total. intros nr _. apply One. exact H. }
    destruct T as (rv & ->). cbn [bind]. eauto.
Qed.
Example ex_accepted :
  is_ok (generate_period_data (ex_mpd ["periods_60"; "etp_30"; "mpdcallback_20"]%string 1000500) 0 0 1000500) = true /\
  is_ok (generate_period_data (ex_mpd ["periods_60"; "etp_7"]%string 1000500) 0 0 1000500) = false /\
  is_ok (generate_period_data (ex_mpd ["periods_7"]%string 1000500) 0 0 1000500) = false /\
  is_ok (generate_period_data (ex_mpd ["periods_10"; "etp_2"; "etpDuration_361"]%string 1000500) 0 0 1000500) = false.
Proof. vm_compute. auto. Qed.

Lemma C25_selected_pf : forall c sn pto now n pd b mup l p nr,
  multi c n pd -> c_tsbd c = Some b -> 0 < c_seg_dur c ->
  generate_period_data c sn pto now = Ok (mup, l) -> In p l -> pd_id p = ("p" ++ print_Z nr)%string ->
  pd_start_s p = nr * pd /\
  (selected n (c_etp c) nr -> pd_etp p = Some (early_length c pd)) /\
  (~ selected n (c_etp c) nr -> pd_etp p = None) /\
  (pd_callback p = true <-> selected n (c_callback c) nr).
Proof.
  intros c sn pto now n pd b mup l p nr M Hb Hd H Hp Hid.
  destruct (generate_nth _ _ _ _ _ _ _ _ _ M Hb Hd H) as (Len & F).
  destruct (multi_min _ _ _ M) as (_ & _ & Hpd & Hn).
  apply In_nth_error in Hp. destruct Hp as (i & Hp).
  destruct (F i p Hp) as (E & _ & _ & _ & E2 & E3 & E4 & _).
  rewrite Hid in E.
  match type of E with _ = ("p" ++ print_Z ?y)%string => change (String "p" (print_Z nr) = String "p" (print_Z y)) in E end.
  injection E as E. apply print_Z_inj in E. rewrite <- E in *.
  apply etp_of_spec in E3; [|lia]. apply callback_of_spec in E4; [|lia]. tauto.
Qed.
Example ex_selected :
  map (fun p => (pd_id p, pd_etp p, pd_callback p)) (ex_periods ["periods_60"; "etp_30"; "mpdcallback_20"; "tsbd_60"]%string 1000500) =
  [("p16673", None, false); ("p16674", Some 30, true); ("p16675", None, false)]%string.
Proof. vm_compute. reflexivity. Qed.

(** A period that is in two manifests is the same in both. *)
Lemma C25_time_independent_pf : forall c sn1 pto1 now1 mup1 l1 p1 sn2 pto2 now2 mup2 l2 p2 n pd b,
  multi c n pd -> c_tsbd c = Some b -> 0 < c_seg_dur c ->
  generate_period_data c sn1 pto1 now1 = Ok (mup1, l1) -> In p1 l1 ->
  generate_period_data c sn2 pto2 now2 = Ok (mup2, l2) -> In p2 l2 ->
  pd_id p1 = pd_id p2 ->
  pd_start p1 = pd_start p2 /\ pd_start_number p1 = pd_start_number p2 /\ pd_pto p1 = pd_pto p2 /\
  pd_start_s p1 = pd_start_s p2 /\ pd_etp p1 = pd_etp p2 /\ pd_callback p1 = pd_callback p2.
Proof.
  intros c sn1 pto1 now1 mup1 l1 p1 sn2 pto2 now2 mup2 l2 p2 n pd b M Hb Hd H1 I1 H2 I2 E.
  destruct (generate_nth _ _ _ _ _ _ _ _ _ M Hb Hd H1) as (_ & F1).
  destruct (generate_nth _ _ _ _ _ _ _ _ _ M Hb Hd H2) as (_ & F2).
  apply In_nth_error in I1. destruct I1 as (i & I1). apply In_nth_error in I2. destruct I2 as (j & I2).
  destruct (F1 i p1 I1) as (a1 & a2 & a3 & a4 & a5 & a6 & a7 & _).
  destruct (F2 j p2 I2) as (b1 & b2 & b3 & b4 & b5 & b6 & b7 & _).
  rewrite a1, b1 in E.
  match type of E with ("p" ++ print_Z ?x)%string = ("p" ++ print_Z ?y)%string =>
    change (String "p" (print_Z x) = String "p" (print_Z y)) in E end.
  injection E as E. apply print_Z_inj in E. rewrite E in *.
  repeat split; congruence.
Qed.
Example ex_time_independent :
  let l1 := ex_periods ["periods_60"; "etp_30"; "tsbd_60"]%string 1000500 in
  let l2 := ex_periods ["periods_60"; "etp_30"; "tsbd_60"]%string 1000530 in
  map pd_id l1 = ["p16673"; "p16674"; "p16675"]%string /\ map pd_id l2 = ["p16674"; "p16675"; "p16676"]%string.
Proof. vm_compute. auto. Qed.

(** The checks made before the manifest is generated. *)
Lemma C25_xlink_checks_pf : forall c,
  (mpd_option_checks c = Ok tt <->
   (0 < c_xlink c -> c_pph c <> -1 /\ (Z.min (c_xlink c) 60 | Z.min (c_pph c) 60)) /\
   (0 < c_insert_ad c -> 0 <= c_xlink c)) /\
  (mpd_option_checks c = Ok tt \/ mpd_option_checks c = Err "Exception").
Proof.
  intros c. unfold mpd_option_checks.
  set (m := Z.min (c_xlink c) 60). set (n := Z.min (c_pph c) 60).
  assert (H0 : 0 < c_xlink c <-> 0 < m) by lia. assert (H1 : 0 <= c_xlink c <-> 0 <= m) by lia.
  assert (H2 : c_pph c = -1 <-> n = -1) by lia.
  rewrite H0, H1, H2. clear H0 H1 H2. clearbody m n. generalize (c_insert_ad c) as ad. intros ad.
  destruct (Z.ltb_spec 0 m) as [Hm|Hm]; cbn [andb].
  - rewrite <- (Z.mod_divide n m) by lia.
    destruct (Z.eqb_spec n (-1)); [split; [split; [discriminate|]|auto]; intros (H & _); destruct (H Hm); contradiction|].
    destruct (Z.eqb_spec (n mod m) 0); cbn [negb]; [|split; [split; [discriminate|]|auto]; intros (H & _); destruct (H Hm); contradiction].
    destruct (Z.ltb_spec m 0); [lia|]. rewrite Bool.andb_false_r.
    split; [|auto]. split; [|auto]. intros _. split; [auto|]. lia.
  - destruct (Z.ltb_spec 0 ad); destruct (Z.ltb_spec m 0); cbn [andb]; split; auto; split; intros; try discriminate; auto; try lia.
Qed.
Example ex_xlink_checks :
  mpd_option_checks (ex_mpd ["periods_60"; "xlink_20"; "insertad_1"]%string 1000500) = Ok tt /\
  mpd_option_checks (ex_mpd ["periods_60"; "xlink_7"]%string 1000500) = Err "Exception"%string /\
  mpd_option_checks (ex_mpd ["xlink_7"]%string 1000500) = Err "Exception"%string.
Proof. vm_compute. auto. Qed.

(** ** C56: the manifest's number window and the media window agree. *)

(** What the manifest of a one-period session announces. *)
Lemma single_period : forall c now, c_pph c = -1 -> 0 < c_seg_dur c ->
  (0 < c_insert_ad c -> c_xlink c <> 0) ->
  exists k p, adjusted_start_number c = Ok k /\
    generate_period_data c k (adjusted_pto c 0 1) now = Ok (None, [p]) /\
    pd_start_number p = print_Z k /\ pd_start_s p = 0 /\
    (c_start_nr c <> -1 -> k = first_nr c) /\ (c_timeoffset c = None -> k = c_start_nr c).
Proof.
  intros c now Hp Hd Had.
  assert (D0 : forall x, py_div x (c_seg_dur c) = Ok (x / c_seg_dur c)).
  { intros x. unfold py_div. destruct (Z.eqb_spec (c_seg_dur c) 0); [lia|reflexivity]. }
  assert (A : exists k, adjusted_start_number c = Ok k /\ (c_start_nr c <> -1 -> k = first_nr c) /\ (c_timeoffset c = None -> k = c_start_nr c)).
  { unfold adjusted_start_number, first_nr. destruct (c_timeoffset c) as [t|].
    - rewrite D0. cbn [bind]. eexists. split; [reflexivity|]. split; [|discriminate].
      intros N. destruct (Z.eqb_spec (c_start_nr c) (-1)); [contradiction|reflexivity].
    - eexists. split; [reflexivity|]. split; [|reflexivity].
      intros N. destruct (Z.eqb_spec (c_start_nr c) (-1)); [contradiction|reflexivity]. }
  destruct A as (k & A & K1 & K2). exists k. eexists. split; [exact A|].
  unfold generate_period_data. rewrite Hp. change (Z.min (-1) 60) with (-1). cbn [count_allowed negb].
  assert (X : exists ad, (if 0 <? c_insert_ad c then py_div (-1) (c_xlink c) else Ok (-1)) = Ok ad).
  { destruct (Z.ltb_spec 0 (c_insert_ad c)); [|eauto]. unfold py_div.
    destruct (Z.eqb_spec (c_xlink c) 0); [exfalso; tauto|eauto]. }
  destruct X as (ad & ->). change (count_allowed (-1)) with true. cbn [negb bind]. rewrite D0. cbn [bind].
  change (-1 =? -1) with true. cbv iota. split; [reflexivity|]. cbn [pd_start_number pd_start_s].
  rewrite Z.add_0_r. auto.
Qed.

(** The configuration of the request for number [n] of the same session. *)
Lemma refile_request : forall c rp n ct ts, 0 <= n -> (forall u, c_multi_url c <> [u]) ->
  media_request (refile rp (print_nat n ++ ".m4s") [mkRep rp ct ts] c) n.
Proof.
  intros c rp n ct ts Hn Hu.
  destruct (print_nat_spec n Hn) as (P1 & P2 & P3).
  assert (E : splitext (print_nat n ++ ".m4s") = (print_nat n, ".m4s")%string).
  { change (print_nat n ++ ".m4s")%string with (print_nat n ++ String "." "m4s")%string.
    rewrite splitext_ext; auto.
    - intros x Hx. eapply all_digits_no_dot; eauto.
    - simpl. intros x [<-|[<-|[<-|[]]]]; discriminate. }
  constructor.
  - unfold refile. cbn [c_ext set_reps set_ext]. rewrite E. reflexivity.
  - apply C29_number_addressing_pf; auto.
  - discriminate.
  - exact Hu.
Qed.

Lemma C56_single_period_partial_pf : forall read base opts name mfile rp v ct m c now b,
  Forall (fun kv => str_in (fst kv) url_cfg_keys = true) opts -> plain_name name ->
  process_url read base (manifest_parts opts name mfile) now = Ok c ->
  read name = Ok v -> split_dunder rp = [rp] -> content_type_for_rep (v_media v) rp = Some (ct, m) ->
  wf_cfg c -> c_pph c = -1 -> c_insert_ad c <= 0 -> (forall u, c_multi_url c <> [u]) ->
  c_ato c = Some 0%Q -> c_tsbd c = Some b -> 0 <= b ->
  c_stop_time c = None -> c_last_nrs c = [] -> c_aet c = None ->
  (c_timeoffset c = None \/ (c_start_nr c <> -1 /\ first_nr c <> -1)) ->
  exists k p, adjusted_start_number c = Ok k /\
    generate_period_data c k (adjusted_pto c 0 1) now = Ok (None, [p]) /\
    pd_start_number p = print_Z k /\
    let s := effective_number k in
    let d := c_seg_dur c in
    let latest := (now - c_ast c - pd_start_s p) / d + s - 1 in
    let served n := exists sv, request read base (media_parts opts name rp (print_nat n ++ ".m4s")) (inject_Z now) = Ok (Serve sv) in
    (* from the first number on, every segment that overlaps the shift buffer *)
    (forall n, 0 <= n -> s <= n <= latest -> now - b <= c_ast c + (n - s + 1) * d -> served n) /\
    (0 <= latest + 1 -> ~ served (latest + 1)).
Proof.
  intros read base opts name mfile rp v ct m c now b F P E R S C W Hpph Had Hmu Hato Hb Hb0 Hstop Hlast Haet Hsn.
  pose proof (wf_dur c W) as Hd.
  destruct (single_period c now Hpph Hd ltac:(lia)) as (k & p & A & G & N & S0 & K1 & K2).
  exists k, p. do 3 (split; [assumption|]). intros s d latest served.
  assert (Es : s = first_nr c).
  { unfold s, effective_number. destruct Hsn as [H|(H1 & H2)].
    - rewrite (K2 H). unfold first_nr. rewrite H. reflexivity.
    - rewrite (K1 H1). destruct (Z.eqb_spec (first_nr c) (-1)); [contradiction|reflexivity]. }
  assert (Sv : forall n, 0 <= n -> (served n <->
    (first_nr c <= n /\ c_ast c + (n - first_nr c + 1) * d <= now /\ now <= c_ast c + (n - first_nr c + 2) * d + b))).
  { intros n Hn. unfold served, request. rewrite py_int_of_Q_inject.
    rewrite (session_same _ _ _ _ _ rp (print_nat n ++ ".m4s")%string _ _ _ _ _ F P E R S C). cbn [bind].
    set (c' := refile rp (print_nat n ++ ".m4s") [mkRep rp ct (m_timescale m)] c).
    assert (MR : media_request c' n) by (apply refile_request; assumption).
    assert (W' : wf_cfg c') by (destruct W; constructor; assumption).
    destruct (C01_media_window_exact_pf c' n (inject_Z now) 0%Q b W' MR Hato Hb Hstop Hlast Haet) as (Win & _).
    change (first_nr c') with (first_nr c) in Win. change (c_ast c') with (c_ast c) in Win.
    change (c_seg_dur c') with (c_seg_dur c) in Win. fold d in Win. clearbody c'.
    rewrite Win. unfold Qminus. rewrite Qplus_0_r. rewrite <- !Zle_Qle. reflexivity. }
  assert (Ld : (latest - s + 1) * d <= now - c_ast c < (latest - s + 2) * d).
  { unfold latest. rewrite S0, Z.sub_0_r.
    pose proof (Z.div_mod (now - c_ast c) d ltac:(lia)). pose proof (Z.mod_pos_bound (now - c_ast c) d Hd).
    fold d in Hd. split; nia. }
  rewrite Es in *. clearbody latest. fold d in Hd. split.
  - intros n Hn0 Hn Hw. apply Sv; [assumption|]. split; [lia|].
    assert ((n - first_nr c + 1) * d <= (latest - first_nr c + 1) * d) by (apply Z.mul_le_mono_nonneg_r; lia).
    split; lia.
  - intros Hl Hs. apply Sv in Hs; [|assumption]. lia.
Qed.
(* snr_7, 30 s buffer, content with 6 s segments: at 1000 the numbers up to 172 are listed. *)
Example ex_window :
  let parts := manifest_parts [("tsbd", "30"); ("snr", "7")]%string "testpic" "Manifest.mpd" in
  exists c, process_url ex_read "http://h/livesim/" parts 1000 = Ok c /\ wf_cfg c /\ c_pph c = -1 /\
  c_ato c = Some 0%Q /\ c_tsbd c = Some 30 /\ c_timeoffset c = None /\ c_stop_time c = None /\ c_multi_url c = [] /\
  (1000 - c_ast c - 0) / c_seg_dur c + 7 - 1 = 172 /\
  map (fun n => is_ok (let* r := request ex_read "http://h/livesim/"
        (media_parts [("tsbd", "30"); ("snr", "7")]%string "testpic" "V1" (print_nat n ++ ".m4s")) 1000 in
      match r with Serve _ => Ok tt | _ => Err ""%string end)) [166; 167; 168; 172; 173] = [false; true; true; true; false].
Proof.
  eexists. split; [vm_compute; reflexivity|].
  split. { constructor; try reflexivity. - exists 30. reflexivity. - intros H. exfalso. apply H. reflexivity. }
  repeat (split; [reflexivity|]). vm_compute. reflexivity.
Qed.

(** In multi-period manifests the same holds period by period, as far as the
    default start number, the epoch start and aligned periods go. *)
Lemma C56_multi_period_partial_pf : forall read base opts name mfile rp v ct m c now b n pd sn pto mup l,
  Forall (fun kv => str_in (fst kv) url_cfg_keys = true) opts -> plain_name name ->
  process_url read base (manifest_parts opts name mfile) now = Ok c ->
  read name = Ok v -> split_dunder rp = [rp] -> content_type_for_rep (v_media v) rp = Some (ct, m) ->
  wf_cfg c -> multi c n pd -> (c_seg_dur c | pd) -> (forall u, c_multi_url c <> [u]) ->
  c_ato c = Some 0%Q -> c_tsbd c = Some b -> 0 <= b ->
  c_stop_time c = None -> c_last_nrs c = [] -> c_aet c = None ->
  c_timeoffset c = None -> c_start_nr c = 0 -> c_ast c = 0 ->
  generate_period_data c sn pto now = Ok (mup, l) ->
  forall p, In p l -> 0 <= pd_start_s p -> exists k, pd_start_number p = print_Z k /\
    let d := c_seg_dur c in
    let latest := (now - c_ast c - pd_start_s p) / d + k - 1 in
    let served n := exists sv, request read base (media_parts opts name rp (print_nat n ++ ".m4s")) (inject_Z now) = Ok (Serve sv) in
    (forall n, k <= n <= latest -> now - b <= c_ast c + pd_start_s p + (n - k + 1) * d -> served n) /\
    (0 <= latest + 1 -> ~ served (latest + 1)).
Proof.
  intros read base opts name mfile rp v ct m c now b n0 pd sn pto mup l F P E R S C W M Dv Hmu Hato Hb Hb0 Hstop Hlast Haet Hto Hsn Hast G p Hp Hp0.
  pose proof (wf_dur c W) as Hd.
  destruct (C24_aligned_partial_pf _ _ _ _ _ _ _ _ _ M Hb Hd Dv Hast Hsn ltac:(intros T HT; congruence) G) as (K & _).
  destruct (K p Hp) as (k & Hk & Ms & _). exists k. split; [assumption|]. intros d latest served.
  assert (Fn : first_nr c = 0) by (unfold first_nr; rewrite Hto, Hsn; reflexivity).
  unfold media_start, media_time_at_ast in Ms. rewrite Hto, Fn in Ms. fold d in Ms, Hd.
  rewrite Z.sub_0_r, Z.add_0_l in Ms.
  assert (K0 : 0 <= k) by nia.
  assert (Sv : forall n, 0 <= n -> (served n <-> ((n + 1) * d <= now /\ now <= (n + 2) * d + b))).
  { intros n Hn. unfold served, request. rewrite py_int_of_Q_inject.
    rewrite (session_same _ _ _ _ _ rp (print_nat n ++ ".m4s")%string _ _ _ _ _ F P E R S C). cbn [bind].
    set (c' := refile rp (print_nat n ++ ".m4s") [mkRep rp ct (m_timescale m)] c).
    assert (MR : media_request c' n) by (apply refile_request; assumption).
    assert (W' : wf_cfg c') by (destruct W; constructor; assumption).
    destruct (C01_media_window_exact_pf c' n (inject_Z now) 0%Q b W' MR Hato Hb Hstop Hlast Haet) as (Win & _).
    change (first_nr c') with (first_nr c) in Win. change (c_ast c') with (c_ast c) in Win.
    change (c_seg_dur c') with (c_seg_dur c) in Win. fold d in Win. clearbody c'.
    rewrite Win, Fn, Hast, Z.sub_0_r, !Z.add_0_l. unfold Qminus. rewrite Qplus_0_r. rewrite <- !Zle_Qle. tauto. }
  assert (Ld : (latest - k + 1) * d <= now - pd_start_s p < (latest - k + 2) * d).
  { unfold latest. rewrite Hast, Z.sub_0_r.
    pose proof (Z.div_mod (now - pd_start_s p) d ltac:(lia)). pose proof (Z.mod_pos_bound (now - pd_start_s p) d Hd).
    split; nia. }
  clearbody latest. rewrite <- Ms in Ld. rewrite Hast. split.
  - intros n Hn Hw. rewrite <- Ms in Hw. apply Sv; [lia|].
    assert ((n + 1) * d <= (latest + 1) * d) by (apply Z.mul_le_mono_nonneg_r; lia). lia.
  - intros Hl Hs. apply Sv in Hs; [|assumption]. lia.
Qed.
Example ex_window_multi :
  let parts := manifest_parts [("tsbd", "60"); ("periods", "60")]%string "testpic" "Manifest.mpd" in
  exists c, process_url ex_read "http://h/livesim/" parts 1000500 = Ok c /\ wf_cfg c /\ multi c 60 60 /\
  c_seg_dur c = 6 /\ c_ato c = Some 0%Q /\ c_tsbd c = Some 60 /\ c_timeoffset c = None /\ c_start_nr c = 0 /\ c_ast c = 0 /\
  c_multi_url c = [] /\
  match generate_period_data c 0 0 1000500 with
  | Ok (_, l) => map (fun p => (pd_start_s p, pd_start_number p)) l | Err _ => [] end
    = [(1000380, "166730"); (1000440, "166740"); (1000500, "166750")]%string.
Proof.
  eexists. split; [vm_compute; reflexivity|].
  split. { constructor; try reflexivity. - exists 60. reflexivity. - intros H. exfalso. apply H. reflexivity. }
  split. { repeat split; try reflexivity; try (vm_compute; congruence). left. reflexivity. }
  repeat (split; [reflexivity|]). vm_compute. reflexivity.
Qed.

(** timeoffset 6 moves the start number to -1, which the manifest drops (default
    1), while the server counts from -1: the numbers differ by two. *)
Lemma C56_minus_one_refuted_pf : exists c now k p,
  wf_cfg c /\ c_pph c = -1 /\ c_ato c = Some 0%Q /\ c_stop_time c = None /\ c_start_nr c = 0 /\
  adjusted_start_number c = Ok k /\ generate_period_data c k (adjusted_pto c 0 1) now = Ok (None, [p]) /\
  pd_start_number p = print_Z k /\ effective_number k <> first_nr c.
Proof.
  destruct (ex_cfg ["timeoffset_6"; "testpic"; "Manifest.mpd"]%string 1000) as [c|] eqn:E; [|vm_compute in E; discriminate].
  vm_compute in E. injection E as E. exists c, 1000, (-1). rewrite <- E. clear E c. eexists.
  split. { constructor; try reflexivity. - exists 300. reflexivity. - intros H. exfalso. apply H. reflexivity. }
  do 5 (split; [reflexivity|]). split; [vm_compute; reflexivity|]. split; [reflexivity|]. vm_compute. discriminate.
Qed.
(** With periods_n the time offset is not counted in the start numbers, so the
    segments the manifest announces last are not served yet (mpd_proxy.py 240-245
    against dash_proxy.py 230-240). *)
Definition off_opts : list (string * string) := [("periods", "60"); ("timeoffset", "60")]%string.
Definition off_cfg : config := Eval vm_compute in
  match process_url ex_read "http://h/livesim/" (manifest_parts off_opts "testpic" "Manifest.mpd") 1000500 with Ok c => c | Err _ => config_init "" end.
Definition off_periods : list pdata := Eval vm_compute in
  match generate_period_data off_cfg 0 0 1000500 with Ok (_, l) => l | Err _ => [] end.
Lemma C56_time_offset_refuted_pf : exists read base opts name mfile rp c now mup l p k,
  process_url read base (manifest_parts opts name mfile) now = Ok c /\
  c_ato c = Some 0%Q /\ c_stop_time c = None /\ c_last_nrs c = [] /\ c_start_nr c = 0 /\ c_ast c = 0 /\ whole_offset c /\
  generate_period_data c (c_start_nr c) 0 now = Ok (mup, l) /\ In p l /\ pd_start_number p = print_Z k /\
  let latest := (now - c_ast c - pd_start_s p) / c_seg_dur c + k - 1 in
  k <= latest /\
  exists why, request read base (media_parts opts name rp (print_nat latest ++ ".m4s")) (inject_Z now) = Ok (Refuse why).
Proof.
  exists ex_read, "http://h/livesim/"%string, off_opts, "testpic"%string, "Manifest.mpd"%string, "V2"%string, off_cfg, 1000500, (Some "PT25S"%string), off_periods.
  exists (nth 0 off_periods (mk_pdata "" "" "" 0 (PInt 0) 0 None false None None)), 166690.
  split; [vm_compute; reflexivity|]. do 5 (split; [reflexivity|]).
  split; [intros T H; vm_compute in H; injection H as <-; exists 10; reflexivity|].
  split; [vm_compute; reflexivity|]. split; [left; reflexivity|]. split; [vm_compute; reflexivity|].
  cbn zeta. split; [vm_compute; discriminate|]. eexists. vm_compute. reflexivity.
Qed.
