(** The filter ends without an error on sendable segments. *)
From Coq Require Import ZifyBool ZifyNat.
From Verif Require Import Base BaseProofs BytesModel BytesProofs Mp4Model Mp4Proofs BoxSpec EmsgModel TtmlModel TimeModel
  MediaModel MediaSpec MediaProofs MediaProofs2 ServeSpec.
Open Scope Z_scope.

Lemma p32_ok : forall z, 0 <= z < 4294967296 -> uint32_to_str z = Ok (be32 z).
Proof.
  intros z H. unfold uint32_to_str. destruct (Z.leb_spec 0 z); [|lia]. destruct (Z.ltb_spec z 4294967296); [|lia].
  cbn [andb]. rewrite be32_eq. reflexivity.
Qed.
Lemma p64_ok : forall z, 0 <= z < 18446744073709551616 -> uint64_to_str z = Ok (be64 z).
Proof.
  intros z H. unfold uint64_to_str. destruct (Z.leb_spec 0 z); [|lia]. destruct (Z.ltb_spec z 18446744073709551616); [|lia].
  cbn [andb]. rewrite be64_eq. reflexivity.
Qed.
Lemma utf8_ascii : forall t, ascii_type t -> utf8_ok t = true.
Proof.
  induction t as [|x t IH]; intros H; [reflexivity|]. inversion H; subst. cbn [utf8_ok].
  destruct (Z.leb_spec x 127); [|lia]. apply IH. assumption.
Qed.
Definition fine (st : mstate) : Prop := 0 <= ms_size_change st <= 4 /\ ms_ttml_size st = None.
(** What the request itself must meet. *)
Record fits (p : mparams) : Prop := mk_fits {
  ft_nr : match mp_seg_nr p with Some n => 0 <= n < 4294967296 | None => True end;
  ft_scte : exists b, create_scte35box (mp_scte35 p) (mp_seg_nr p) (mp_seg_duration p) = Ok b
}.
Definition shift_of (p : mparams) : Z := match mp_timescale p with Some ts => mp_offset p * ts | None => 0 end.

Lemma mfhd_runs : forall p pl st, fits p -> fine st -> exists out st1,
  process_mfhd p (enc (Leaf (bstr "mfhd") pl)) st = Ok (out, st1) /\ fine st1.
Proof.
  intros p pl st F I. unfold process_mfhd. destruct F as [F _]. destruct (mp_seg_nr p) as [n|].
  - rewrite p32_ok by exact F. cbn [bind]. eauto.
  - eauto.
Qed.
Lemma tail_slice : forall n z a x, n = blen a -> z = n + blen x -> bslice n z (a ++ x) = x.
Proof. intros n z a x H1 H2. rewrite <- (app_nil_r x) at 1. apply bslice_len'; assumption. Qed.
Lemma tfdt_runs : forall p pl t st, 8 + blen pl < 4294967296 -> decode_time pl t -> 0 <= t + shift_of p < 18446744073709551616 ->
  fine st -> exists out st1, process_tfdt p (enc (Leaf (bstr "tfdt") pl)) st = Ok (out, st1) /\ fine st1.
Proof.
  intros p pl t st SZ DT R (I1 & I2). unfold process_tfdt. fold (shift_of p). rewrite enc_leaf.
  set (hdr := be32 (8 + blen pl) ++ bstr "tfdt").
  assert (HH : blen hdr = 8) by (apply hdr_len; reflexivity).
  destruct DT as [f t Lf Bt|v f t NV Lf Bt].
  - rewrite byte8 by exact HH. cbn [bind]. change (0 =? 0) with true. cbv iota.
    replace (bslice 12 16 (hdr ++ 0 :: f ++ be32 t)) with (be32 t).
    2:{ rewrite slice_hdr by (auto; lia). change (0 :: f ++ be32 t) with ((0 :: f) ++ be32 t).
        symmetry. apply tail_slice; rewrite ?blen_cons, ?blen_be32; lia. }
    rewrite u32_ok by reflexivity. cbn [bind]. rewrite be32_val by exact Bt.
    destruct (Z.ltb_spec (t + shift_of p) 4294967296).
    + rewrite p32_ok by lia. cbn [bind]. do 2 eexists. split; [reflexivity|]. split; [exact I1|first [exact I2|reflexivity]].
    + replace (btake 4 (hdr ++ 0 :: f ++ be32 t)) with (be32 (8 + blen (0 :: f ++ be32 t))).
      2:{ unfold hdr. rewrite <- app_assoc. symmetry. apply btake_len'. reflexivity. }
      rewrite u32_ok by reflexivity. cbn [bind]. assert (LP : blen (0 :: f ++ be32 t) = 8) by (rewrite blen_cons, blen_app, blen_be32; lia).
      rewrite LP. rewrite be32_val by lia. rewrite p32_ok by lia. cbn [bind]. rewrite p64_ok by lia. cbn [bind].
      do 2 eexists. split; [reflexivity|]. split; [cbn; lia|exact I2].
  - rewrite byte8 by exact HH. cbn [bind]. destruct (Z.eqb_spec v 0); [contradiction|].
    replace (bslice 12 20 (hdr ++ v :: f ++ be64 t)) with (be64 t).
    2:{ rewrite slice_hdr by (auto; lia). change (v :: f ++ be64 t) with ((v :: f) ++ be64 t).
        symmetry. apply tail_slice; rewrite ?blen_cons, ?blen_be64; lia. }
    rewrite u64_ok by reflexivity. cbn [bind]. rewrite be64_val by exact Bt. rewrite p64_ok by lia. cbn [bind].
    do 2 eexists. split; [reflexivity|]. split; [exact I1|first [exact I2|reflexivity]].
Qed.
Lemma tfhd_runs : forall pl st, layout (bstr "tfhd") pl -> Z.testbit (be_val (btake 4 pl)) 0 = false -> fine st ->
  exists out st1, process_tfhd (enc (Leaf (bstr "tfhd") pl)) st = Ok (out, st1) /\ fine st1.
Proof.
  intros pl st L B0 (I1 & I2). unfold process_tfhd. rewrite enc_leaf.
  destruct (layout_tfhd pl L) as (vf & track & a & b & c & rest & E & LV & LT & LA & LB & LC).
  set (hdr := be32 (8 + blen pl) ++ bstr "tfhd").
  assert (HH : blen hdr = 8) by (apply hdr_len; reflexivity).
  assert (TV : btake 4 pl = vf) by (rewrite E; apply btake_len'; auto).
  assert (S1 : bslice 8 12 (hdr ++ pl) = vf).
  { rewrite slice_hdr by (auto; lia). rewrite bslice_0. auto. }
  rewrite S1, u32_ok by auto. cbn [bind]. rewrite TV in B0.
  assert (FT0 := flag_testbit (be_val vf) 0 ltac:(lia)). change (2 ^ 0) with 1 in FT0.
  assert (FT1 := flag_testbit (be_val vf) 1 ltac:(lia)). change (2 ^ 1) with 2 in FT1.
  assert (FT3 := flag_testbit (be_val vf) 3 ltac:(lia)). change (2 ^ 3) with 8 in FT3.
  rewrite FT0, FT1, FT3, B0. rewrite <- LA. rewrite I2. cbn [truthy].
  destruct (Z.testbit (be_val vf) 3).
  - replace (bslice (16 + blen a) (16 + blen a + 4) (hdr ++ pl)) with b.
    + rewrite u32_ok by exact LB. cbn [bind]. unfold ms_with_default. cbn [ms_ttml_size]. rewrite I2. do 2 eexists. split; [reflexivity|]. split; [exact I1|first [exact I2|reflexivity]].
    + assert (NA := blen_nonneg a). rewrite slice_hdr by (auto; lia). rewrite E.
      replace (vf ++ track ++ a ++ b ++ c ++ rest) with ((vf ++ track ++ a) ++ b ++ c ++ rest) by (rewrite <- !app_assoc; reflexivity).
      symmetry. apply bslice_len'; rewrite ?blen_app; lia.
  - cbn [bind]. rewrite I2. do 2 eexists. split; [reflexivity|]. split; [exact I1|first [exact I2|reflexivity]].
Qed.

(** The loop over the samples reads fields that are there. *)
Lemma trun_loop_runs : forall n data flags dflt pos dur k,
  flag flags 256 = true -> 0 <= pos ->
  k = 4 + (if flag flags 512 then 4 else 0) + (if flag flags 1024 then 4 else 0) + (if flag flags 2048 then 4 else 0) ->
  pos + k * Z.of_nat n <= blen data -> exists d, trun_loop n data flags dflt pos dur = Ok d.
Proof.
  induction n as [|n IH]; intros data flags dflt pos dur k F P K H; [cbn; eauto|].
  cbn [trun_loop]. rewrite F.
  assert (K0 : 4 <= k) by (rewrite K; destruct (flag flags 512), (flag flags 1024), (flag flags 2048); lia).
  rewrite u32_ok.
  2:{ unfold bslice. rewrite blen_btake, blen_bdrop by (try lia). nia. }
  cbn [bind]. eapply IH; [exact F| |exact K|].
  - destruct (flag flags 512), (flag flags 1024), (flag flags 2048); lia.
  - rewrite Nat2Z.inj_succ in H. subst k. destruct (flag flags 512), (flag flags 1024), (flag flags 2048); lia.
Qed.
Lemma trun_loop_dflt : forall n data flags dflt pos dur, flag flags 256 = false -> exists d, trun_loop n data flags dflt pos dur = Ok d.
Proof.
  induction n as [|n IH]; intros data flags dflt pos dur F; [cbn; eauto|].
  cbn [trun_loop]. rewrite F. destruct dflt; cbn [bind]; apply IH; exact F.
Qed.
Lemma concat_len : forall A (g : A -> bytes) k l, Forall (fun x => blen (g x) = k) l ->
  blen (List.concat (map g l)) = k * Z.of_nat (List.length l).
Proof.
  induction l as [|x l IH]; intros H; [cbn; change (blen []) with 0; lia|]. inversion H; subst.
  cbn [map List.concat List.length]. rewrite blen_app, IH by assumption. lia.
Qed.
Lemma signed_s32 : forall z, -2147483648 <= z < 2147483648 -> (be_val (s32 z) + 2147483648) mod 4294967296 - 2147483648 = z.
Proof.
  intros z H. unfold s32. rewrite be32_val by (apply Z.mod_pos_bound; lia). rewrite Z.add_mod_idemp_l by lia.
  rewrite Z.mod_small by lia. lia.
Qed.
Lemma trun_runs : forall pl total st, bytes_ok pl -> trun_total 0 pl total -> Forall (fun o => o + 4 < 2147483648) (data_offset pl) ->
  fine st -> exists out st1, process_trun (enc (Leaf (bstr "trun") pl)) st = Ok (out, st1) /\ fine st1.
Proof.
  intros pl total st OK T D (I1 & I2). unfold process_trun. rewrite enc_leaf.
  set (hdr := be32 (8 + blen pl) ++ bstr "trun").
  assert (HH : blen hdr = 8) by (apply hdr_len; reflexivity).
  assert (X : exists vf n hd tail, pl = vf ++ be32 (Z.of_nat n) ++ hd ++ tail /\ blen vf = 4 /\ blen hd = trun_head (be_val vf) /\
    Z.of_nat n < 4294967296 /\
    (Z.testbit (be_val vf) 8 = true -> blen tail = (4 + sample_extra (be_val vf)) * Z.of_nat n)).
  { destruct T as [vf hd samples LV LH B8 F LN|vf hd samples LV LH B8 F LN].
    - exists vf, (List.length samples), hd. eexists. split; [reflexivity|]. split; [exact LV|]. split; [exact LH|]. split; [exact LN|].
      intros _. apply concat_len. rewrite Forall_forall in *. intros x Hx. destruct (F x Hx) as (_ & E). rewrite blen_app, blen_be32. lia.
    - exists vf, (List.length samples), hd. eexists. split; [reflexivity|]. split; [exact LV|]. split; [exact LH|]. split; [exact LN|].
      intros K. congruence. }
  destruct X as (vf & n & hd & tail & E & LV & LH & LN & LT).
  assert (TV : btake 4 pl = vf) by (rewrite E; apply btake_len'; auto).
  rewrite !slice_hdr by (auto; lia).
  change (8 - 8) with 0. change (12 - 8) with 4. change (16 - 8) with 8. change (20 - 8) with 12.
  rewrite bslice_0, TV. rewrite u32_ok by exact LV. cbn [bind].
  replace (bslice 4 8 pl) with (be32 (Z.of_nat n)).
  2:{ rewrite E. symmetry. apply bslice_len'; rewrite ?blen_be32; lia. }
  rewrite u32_ok by reflexivity. cbn [bind]. rewrite be32_val by lia. rewrite Nat2Z.id.
  assert (FT0 := flag_testbit (be_val vf) 0 ltac:(lia)). change (2 ^ 0) with 1 in FT0.
  assert (FT2 := flag_testbit (be_val vf) 2 ltac:(lia)). change (2 ^ 2) with 4 in FT2.
  assert (FT8 := flag_testbit (be_val vf) 8 ltac:(lia)). change (2 ^ 8) with 256 in FT8.
  assert (FT9 := flag_testbit (be_val vf) 9 ltac:(lia)). change (2 ^ 9) with 512 in FT9.
  assert (FT10 := flag_testbit (be_val vf) 10 ltac:(lia)). change (2 ^ 10) with 1024 in FT10.
  assert (FT11 := flag_testbit (be_val vf) 11 ltac:(lia)). change (2 ^ 11) with 2048 in FT11.
  assert (LO : exists d, trun_loop n (hdr ++ pl) (Z.land (be_val vf) 16777215) (ms_default_dur st)
     (16 + (if flag (Z.land (be_val vf) 16777215) 1 then 4 else 0) + (if flag (Z.land (be_val vf) 16777215) 4 then 4 else 0)) 0 = Ok d).
  { destruct (Z.testbit (be_val vf) 8) eqn:B8.
    - eapply trun_loop_runs; [exact FT8| |reflexivity|].
      + clear. destruct (flag _ 1), (flag _ 4); lia.
      + rewrite FT0, FT2, FT9, FT10, FT11. rewrite E, !blen_app, blen_be32, HH, LV, LH, (LT eq_refl). unfold trun_head, sample_extra. clear.
        destruct (Z.testbit (be_val vf) 0), (Z.testbit (be_val vf) 2), (Z.testbit (be_val vf) 9), (Z.testbit (be_val vf) 10), (Z.testbit (be_val vf) 11); lia.
    - apply trun_loop_dflt. exact FT8. }
  destruct LO as (d & ->). cbn [bind]. rewrite FT0.
  destruct (Z.testbit (be_val vf) 0) eqn:B0; cbn [andb].
  - destruct (Z.ltb_spec 0 (ms_size_change st)).
    + assert (L12 : blen (bslice 8 12 pl) = 4).
      { assert (NT := blen_nonneg tail). assert (LL : blen pl = 4 + (4 + (4 + (if Z.testbit (be_val vf) 2 then 4 else 0) + blen tail))).
        { rewrite E, !blen_app, blen_be32, LV, LH. unfold trun_head. rewrite B0. reflexivity. }
        assert (L2 : 12 <= blen pl) by (clear - LL NT; destruct (Z.testbit (be_val vf) 2); lia).
        clear - L2. unfold bslice. rewrite blen_btake; rewrite ?blen_bdrop; lia. }
      destruct (s32_val (bslice 8 12 pl) (bytes_ok_bslice _ _ _ OK) L12) as (z & Z1 & Z2 & Z3).
      rewrite Z1. cbn [bind].
      assert (Z4 : z + 4 < 2147483648).
      { unfold data_offset in D. rewrite TV, B0 in D. inversion D as [|? ? D1 _]; subst.
        rewrite Z2, signed_s32 in D1 by exact Z3. exact D1. }
      clear - Z1 Z3 Z4 I1 I2.
      unfold sint32_to_str. destruct (Z.leb_spec (-2147483648) (z + ms_size_change st)); [|lia].
      destruct (Z.ltb_spec (z + ms_size_change st) 2147483648); [|lia]. cbn [andb bind].
      do 2 eexists. split; [reflexivity|]. split; [exact I1|first [exact I2|reflexivity]].
    + cbn [bind]. do 2 eexists. split; [reflexivity|]. split; [exact I1|first [exact I2|reflexivity]].
  - cbn [bind]. do 2 eexists. split; [reflexivity|]. split; [exact I1|first [exact I2|reflexivity]].
Qed.

Lemma saio_runs0 : forall es pre d, 0 <= d <= 4 -> Forall (fun e => 0 <= e < 4294967296) es -> Forall (fun e => e + 4 < 4294967296) es ->
  exists r, saio_loop (List.length es) 4 str_to_uint32 uint32_to_str (pre ++ List.concat (map be32 es)) d (blen pre) = Ok r.
Proof.
  induction es as [|e l IH]; intros pre d D F G; [cbn; eauto|]. inversion F; inversion G; subst.
  cbn [List.length saio_loop map List.concat]. rewrite bslice_mid by reflexivity. rewrite u32_ok by reflexivity. cbn [bind].
  rewrite be32_val by assumption. rewrite p32_ok by lia. cbn [bind].
  destruct (IH (pre ++ be32 e) d D) as ((rest & f1) & R); auto.
  replace (pre ++ be32 e ++ List.concat (map be32 l)) with ((pre ++ be32 e) ++ List.concat (map be32 l)) by (symmetry; apply app_assoc).
  replace (blen pre + 4) with (blen (pre ++ be32 e)) by (rewrite blen_app, blen_be32; lia). rewrite R. cbn [bind]. eauto.
Qed.
Lemma saio_runs1 : forall es pre d, 0 <= d <= 4 -> Forall (fun e => 0 <= e < 18446744073709551616) es -> Forall (fun e => e + 4 < 4294967296) es ->
  exists r, saio_loop (List.length es) 8 str_to_uint64 uint64_to_str (pre ++ List.concat (map be64 es)) d (blen pre) = Ok r.
Proof.
  induction es as [|e l IH]; intros pre d D F G; [cbn; eauto|]. inversion F; inversion G; subst.
  cbn [List.length saio_loop map List.concat]. rewrite bslice_mid by reflexivity. rewrite u64_ok by reflexivity. cbn [bind].
  rewrite be64_val by assumption. rewrite p64_ok by lia. cbn [bind].
  destruct (IH (pre ++ be64 e) d D) as ((rest & f1) & R); auto.
  replace (pre ++ be64 e ++ List.concat (map be64 l)) with ((pre ++ be64 e) ++ List.concat (map be64 l)) by (symmetry; apply app_assoc).
  replace (blen pre + 8) with (blen (pre ++ be64 e)) by (rewrite blen_app, blen_be64; lia). rewrite R. cbn [bind]. eauto.
Qed.
Lemma saio_runs : forall pl es st, bytes_ok pl -> saio_entries pl es -> Forall (fun e => e + 4 < 4294967296) es -> fine st ->
  exists out st1, process_saio (enc (Leaf (bstr "saio") pl)) st = Ok (out, st1) /\ fine st1.
Proof.
  intros pl es st OK S G (I1 & I2). unfold process_saio. rewrite enc_leaf.
  set (hdr := be32 (8 + blen pl) ++ bstr "saio").
  assert (HH : blen hdr = 8) by (apply hdr_len; reflexivity).
  assert (X : exists v f aux rest, pl = (v :: f) ++ aux ++ be32 (Z.of_nat (List.length es)) ++ rest /\ 0 <= v < 256 /\ blen f = 3 /\
     Z.of_nat (List.length es) < 4294967296 /\
     blen aux = (if Z.testbit (be_val f) 0 then 8 else 0) /\
     (v = 0 /\ rest = List.concat (map be32 es) /\ Forall (fun e => 0 <= e < 4294967296) es \/
      v <> 0 /\ rest = List.concat (map be64 es) /\ Forall (fun e => 0 <= e < 18446744073709551616) es)).
  { destruct S as [f aux es Lf La F LN|v f aux es Hv Lf La F LN].
    - exists 0, f, aux. eexists. split; [reflexivity|]. split; [lia|]. split; [exact Lf|]. split; [exact LN|]. split; [exact La|]. left. auto.
    - exists v, f, aux. eexists. split; [reflexivity|]. split; [lia|]. split; [exact Lf|]. split; [exact LN|]. split; [exact La|]. right. split; [lia|auto]. }
  destruct X as (v & f & aux & rest & E & Bv & Lf & LN & La & K).
  assert (OKf : bytes_ok f).
  { rewrite E in OK. apply bytes_ok_app in OK. destruct OK as [O1 _]. inversion O1; auto. }
  destruct (vf_fields v f Bv Lf OKf) as [VF1 VF2].
  assert (S1 : bslice 8 12 (hdr ++ pl) = v :: f).
  { rewrite slice_hdr by (auto; lia). rewrite E. rewrite bslice_0. apply btake_len'. rewrite blen_cons. lia. }
  rewrite S1, u32_ok by (rewrite blen_cons; lia). cbn [bind]. rewrite VF1.
  assert (FT0 := flag_testbit (be_val (v :: f)) 0 ltac:(lia)). change (2 ^ 0) with 1 in FT0. rewrite FT0, VF2, <- La.
  assert (S2 : bslice (12 + blen aux) (12 + blen aux + 4) (hdr ++ pl) = be32 (Z.of_nat (List.length es))).
  { rewrite slice_hdr by (auto; assert (X := blen_nonneg aux); lia). rewrite E.
    replace ((v :: f) ++ aux ++ be32 (Z.of_nat (List.length es)) ++ rest) with (((v :: f) ++ aux) ++ be32 (Z.of_nat (List.length es)) ++ rest)
      by (rewrite <- app_assoc; reflexivity).
    apply bslice_len'; rewrite ?blen_app, ?blen_cons, ?blen_be32; lia. }
  rewrite S2, u32_ok by reflexivity. cbn [bind]. rewrite be32_val by lia. rewrite Nat2Z.id.
  set (pre := hdr ++ (v :: f) ++ aux ++ be32 (Z.of_nat (List.length es))).
  assert (EP : hdr ++ pl = pre ++ rest).
  { unfold pre. rewrite E, <- !app_assoc. reflexivity. }
  assert (LPre : 12 + blen aux + 4 = blen pre).
  { unfold pre. rewrite !blen_app, blen_cons, blen_be32. lia. }
  rewrite EP, LPre.
  destruct K as [(-> & -> & FE)|(NV & -> & FE)].
  - change (0 =? 0) with true. cbv iota. destruct (saio_runs0 es pre (ms_size_change st) I1 FE G) as ((bdy & first) & R). rewrite R. cbn [bind].
    do 2 eexists. split; [reflexivity|]. destruct first; split; [exact I1|exact I2|exact I1|exact I2].
  - destruct (Z.eqb_spec v 0); [contradiction|]. destruct (saio_runs1 es pre (ms_size_change st) I1 FE G) as ((bdy & first) & R). rewrite R. cbn [bind].
    do 2 eexists. split; [reflexivity|]. destruct first; split; [exact I1|exact I2|exact I1|exact I2].
Qed.
Lemma filter_le : forall A (f : A -> bool) l, (List.length (filter f l) <= List.length l)%nat.
Proof. induction l; cbn; [lia|]. destruct (f a); cbn; lia. Qed.
Lemma styp_runs : forall p pl st, fits p -> 8 + blen pl < 2147483648 -> layout (bstr "styp") pl -> fine st ->
  exists out st1, process_styp p (enc (Leaf (bstr "styp") pl)) st = Ok (out, st1) /\ fine st1.
Proof.
  intros p pl st FT SZ L I. unfold process_styp.
  assert (LL : exists brands, pl = List.concat brands /\ Forall (fun b => blen b = 4) brands).
  { inversion L; subst; eauto; try discriminate. exfalso. apply H. simpl; auto. }
  destruct LL as (brands & -> & F). rewrite enc_leaf. set (pl := List.concat brands) in *.
  set (hdr := be32 (8 + blen pl) ++ bstr "styp").
  assert (HH : blen hdr = 8) by (apply hdr_len; reflexivity).
  assert (S1 : btake 4 (hdr ++ pl) = be32 (8 + blen pl)).
  { unfold hdr. rewrite <- app_assoc. apply btake_len'. reflexivity. }
  rewrite S1, u32_ok by reflexivity. cbn [bind]. rewrite be32_val by (assert (X := blen_nonneg pl); lia).
  replace (8 + blen pl) with (blen (hdr ++ pl)) by (rewrite blen_app; lia).
  assert (BL : brand_loop (Z.to_nat (blen (hdr ++ pl))) (hdr ++ pl) (blen (hdr ++ pl)) 8 = filter not_lmsg brands).
  { rewrite <- HH at 1. apply brand_loop_spec; auto. rewrite blen_app. unfold pl. rewrite concat4_len by auto. lia. }
  rewrite BL. assert (LE := filter_le _ not_lmsg brands). unfold pl in SZ. rewrite concat4_len in SZ by exact F.
  rewrite p32_ok. 2:{ destruct (mp_lmsg p); rewrite ?app_length; cbn [List.length]; lia. }
  cbn [bind]. destruct (ft_scte p FT) as (b & ->). cbn [bind]. eauto.
Qed.

Lemma leaf_runs : forall p t pl st, fits p -> box_ok containers leaf_ok (Leaf t pl) -> 8 + blen pl < 2147483648 ->
  room (shift_of p) (t, pl) -> fine st ->
  exists out st1, process_leaf (m_class p) t (enc (Leaf t pl)) st = Ok (out, st1) /\ fine st1.
Proof.
  intros p t pl st FT (LT & _ & HSZ & L & OK) SZ R I. unfold process_leaf.
  assert (A : utf8_ok t = true) by (inversion R; subst; try reflexivity; apply utf8_ascii; assumption). rewrite A.
  cbn [fc_method m_class]. unfold m_method.
  assert (NE : forall s, ~ In (bstr s) [bstr "tfdt"; bstr "tfhd"; bstr "trun"; bstr "saio"] \/ True) by auto.
  destruct (bytes_eqb t (bstr "styp")) eqn:E1; [apply bytes_eqb_eq in E1; subst t; apply styp_runs; auto|].
  destruct (bytes_eqb t (bstr "tfhd")) eqn:E2.
  { apply bytes_eqb_eq in E2; subst t. inversion R; subst; [apply tfhd_runs; auto|]. exfalso; match goal with K : ~ In _ [_;_;_;_] |- _ => apply K; simpl; auto end. }
  destruct (bytes_eqb t (bstr "mfhd")) eqn:E3; [apply bytes_eqb_eq in E3; subst t; apply mfhd_runs; auto|].
  destruct (bytes_eqb t (bstr "trun")) eqn:E4.
  { apply bytes_eqb_eq in E4; subst t. inversion R; subst; [eapply trun_runs; eauto; apply OK; simpl; auto 10|]. exfalso; match goal with K : ~ In _ [_;_;_;_] |- _ => apply K; simpl; auto end. }
  destruct (bytes_eqb t (bstr "saio")) eqn:E5.
  { apply bytes_eqb_eq in E5; subst t. inversion R; subst; [eapply saio_runs; eauto; apply OK; simpl; auto 10|]. exfalso; match goal with K : ~ In _ [_;_;_;_] |- _ => apply K; simpl; auto end. }
  destruct (bytes_eqb t (bstr "sidx")) eqn:E6; [unfold process_sidx; eauto|].
  destruct (bytes_eqb t (bstr "tfdt")) eqn:E7.
  { apply bytes_eqb_eq in E7; subst t. inversion R; subst; [eapply tfdt_runs; eauto|]. exfalso; match goal with K : ~ In _ [_;_;_;_] |- _ => apply K; simpl; auto end. }
  eauto.
Qed.

(** ** Growth *)
Lemma flat_leaves : forall t ks, leaves (Node t ks) = flat_map leaves ks.
Proof. intros t ks. cbn [leaves]. induction ks as [|k ks IH]; [reflexivity|]. cbn [flat_map]. rewrite IH. reflexivity. Qed.
Definition no_styp (b : box) : Prop := ~ In (bstr "styp") (map fst (leaves b)).
Lemma be_len : forall (f : Z -> bytes) k l, (forall z, blen (f z) = k) -> blen (List.concat (map f l)) = k * Z.of_nat (List.length l).
Proof. intros f k l H. apply concat_len. apply Forall_forall. intros x _. apply H. Qed.
Lemma blen_leaf : forall t p, blen t = 4 -> blen (enc (Leaf t p)) = 8 + blen p.
Proof. intros t p H. cbn [enc]. rewrite !blen_app, blen_be32. lia. Qed.
Lemma blen_node : forall t ks, blen t = 4 -> blen (enc (Node t ks)) = 8 + blen (encs ks).
Proof. intros t ks H. rewrite blen_enc by exact H. reflexivity. Qed.
Lemma s32_len : forall z, blen (s32 z) = 4.
Proof. reflexivity. Qed.
Lemma leaf_growth : forall r d t p bs d', doc_change r d (Leaf t p) bs d' -> blen t = 4 -> t <> bstr "styp" ->
  blen (encs bs) <= 2 * blen (enc (Leaf t p)).
Proof.
  intros r d t p bs d' H LT NS. rewrite blen_leaf by exact LT. assert (NP := blen_nonneg p).
  inversion H; subst; try (exfalso; apply NS; reflexivity); cbn [encs]; rewrite ?app_nil_r; rewrite ?blen_leaf by reflexivity.
  all: try (change (blen []) with 0; lia).
  all: try (rewrite blen_leaf by exact LT; lia).
  all: repeat (rewrite ?blen_app, ?blen_cons, ?blen_be32, ?blen_be64, ?s32_len in * ); try lia.
  all: repeat match goal with K := _ |- _ => subst K end.
  all: rewrite ?map_map in *; repeat (rewrite ?blen_app, ?blen_cons, ?blen_be32, ?blen_be64 in * ).
  all: try (rewrite !(be_len (fun e => be32 (e + d')) 4), !(be_len be32 4) in * by reflexivity; lia).
  all: try (rewrite !(be_len (fun e => be64 (e + d')) 8), !(be_len be64 8) in * by reflexivity; lia).
Qed.
Lemma node_no_styp : forall t ks, no_styp (Node t ks) -> Forall no_styp ks.
Proof.
  intros t ks NS. apply Forall_forall. intros k Hk X. apply NS. rewrite flat_leaves. apply in_map_iff in X. destruct X as (x & X1 & X2).
  apply in_map_iff. exists x. split; [exact X1|]. apply in_flat_map. eauto.
Qed.
Lemma list_growth : forall r l,
  Forall (fun b => forall d bs d', doc_change r d b bs d' -> box_ok containers leaf_ok b -> no_styp b -> blen (encs bs) <= 2 * blen (enc b)) l ->
  forall d l' d', doc_changes r d l l' d' -> boxes_ok containers leaf_ok l -> Forall no_styp l -> blen (encs l') <= 2 * blen (encs l).
Proof.
  intros r l. induction 1 as [|b l Hb _ IH]; intros d l' d' H OK NS; inversion H; subst.
  - cbn [encs]. change (blen []) with 0. lia.
  - destruct OK as [K1 K2]. inversion NS; subst. rewrite encs_app. cbn [encs]. rewrite !blen_app.
    match goal with A : doc_change _ _ _ _ _, B : doc_changes _ _ l _ _ |- _ => apply Hb in A; auto; apply IH in B; auto; lia end.
Qed.
Lemma box_growth : forall r b d bs d', doc_change r d b bs d' -> box_ok containers leaf_ok b -> no_styp b ->
  blen (encs bs) <= 2 * blen (enc b).
Proof.
  intros r. induction b as [t p|t ks IH] using box_ind2; intros d bs d' H OK NS.
  - eapply leaf_growth; [exact H|apply OK|]. intros E. apply NS. cbn [leaves map fst]. left. exact E.
  - assert (T := box_ok_type _ _ _ OK). cbn [btype] in T. apply box_ok_node in OK. destruct OK as (_ & _ & _ & K).
    inversion H; subst. cbn [encs]. rewrite app_nil_r, !blen_node by exact T.
    match goal with A : doc_changes _ _ _ _ _ |- _ => apply (list_growth r ks IH) in A; auto; [lia|] end.
    apply (node_no_styp _ _ NS).
Qed.

(** ** Trees *)
Lemma lf_runs : forall p t pl st, fits p -> box_ok containers leaf_ok (Leaf t pl) -> 8 + blen pl < 2147483648 ->
  room (shift_of p) (t, pl) -> fine st -> exists bs st1, lf p t pl st = Ok (bs, st1) /\ fine st1.
Proof.
  intros p t pl st F OK SZ R I. destruct (leaf_runs p t pl st F OK SZ R I) as (out & st1 & E & I1).
  unfold lf. rewrite E. cbn [bind]. eauto.
Qed.
Lemma boxes_run : forall p ks, fits p ->
  Forall (fun b => forall st, box_ok containers leaf_ok b -> blen (enc b) < 2147483648 -> Forall (room (shift_of p)) (leaves b) ->
     no_styp b -> fine st -> exists bs st1, tr_box (lf p) b st = Ok (bs, st1) /\ fine st1) ks ->
  forall st, boxes_ok containers leaf_ok ks -> blen (encs ks) < 2147483648 -> Forall (room (shift_of p)) (flat_map leaves ks) ->
     Forall no_styp ks -> fine st -> exists bs st1, tr_boxes (lf p) ks st = Ok (bs, st1) /\ fine st1.
Proof.
  intros p ks F. induction 1 as [|k ks Hk _ IH]; intros st OK SZ R NS I; cbn [tr_boxes]; [eauto|].
  destruct OK as [O1 O2]. cbn [encs flat_map] in *. rewrite blen_app in SZ. apply Forall_app in R. destruct R as [R1 R2].
  inversion NS; subst. assert (N1 := blen_nonneg (enc k)). assert (N2 := blen_nonneg (encs ks)).
  destruct (Hk st O1 ltac:(lia) R1 H1 I) as (a & sa & -> & I1). cbn [bind].
  destruct (IH sa O2 ltac:(lia) R2 H2 I1) as (b & sb & -> & I2). cbn [bind]. eauto.
Qed.
Lemma box_runs : forall p, fits p -> forall b st, box_ok containers leaf_ok b -> blen (enc b) < 2147483648 ->
  Forall (room (shift_of p)) (leaves b) -> no_styp b -> fine st ->
  exists bs st1, tr_box (lf p) b st = Ok (bs, st1) /\ fine st1.
Proof.
  intros p F. induction b as [t pl|t ks IH] using box_ind2; intros st OK SZ R NS I.
  - cbn [tr_box]. apply lf_runs; auto; [rewrite blen_leaf in SZ; [exact SZ|apply OK]|]. inversion R; assumption.
  - rewrite tr_node. assert (T := box_ok_type _ _ _ OK). cbn [btype] in T. rewrite blen_node in SZ by exact T.
    apply box_ok_node in OK. destruct OK as (_ & _ & _ & OK). rewrite flat_leaves in R.
    assert (FN := node_no_styp _ _ NS).
    destruct (boxes_run p ks F IH st OK ltac:(lia) R FN I) as (bs & st1 & E & I1).
    destruct (tr_boxes_doc p ks st bs st1 (proj1 (proj1 I)) OK E) as (DC & _).
    assert (G := list_growth _ ks (proj2 (Forall_forall _ _) (fun b _ => box_growth _ b)) _ _ _ DC OK FN).
    rewrite E. cbn [bind]. destruct (Z.ltb_spec (8 + blen (encs bs)) 4294967296); [eauto|lia].
Qed.
Lemma tops_run : forall p, fits p -> forall l st, segment_ok l -> blen (encs l) < 2147483648 ->
  (forall b, In b l -> Forall (room (shift_of p)) (leaves b)) ->
  (forall t ks, In (Node t ks) l -> ~ In (bstr "styp") (map fst (leaves (Node t ks)))) -> fine st ->
  exists g st1, tr_tops (m_class p) (lf p) l st = Ok (g, st1) /\ fine st1 /\
    ((exists b, In b l /\ moof b) -> groups_bytes g <> []).
Proof.
  intros p F. induction l as [|b l IH]; intros st OK SZ R NS I; cbn [tr_tops].
  { exists [], st. split; [reflexivity|]. split; [exact I|]. intros (b & [] & _). }
  destruct OK as [O1 O2]. cbn [encs] in SZ. rewrite blen_app in SZ.
  assert (N1 := blen_nonneg (enc b)). assert (N2 := blen_nonneg (encs l)).
  assert (T : exists a sa, tr_top (m_class p) (lf p) b st = Ok (a, sa) /\ fine sa /\ (moof b -> encs a <> [])).
  { unfold tr_top. destruct (bytes_in (btype b) (fc_top (m_class p))) eqn:BI.
    - destruct b as [t pl|t ks].
      + cbn [tr_box]. destruct (lf_runs p t pl st F O1) as (a & sa & E & I1); auto.
        { rewrite blen_leaf in SZ; [lia|apply O1]. }
        { specialize (R _ (or_introl eq_refl)). inversion R; assumption. }
        exists a, sa. split; [exact E|]. split; [exact I1|]. intros M. exfalso. destruct O1 as (_ & K & _). apply K.
        unfold moof in M. cbn [btype] in M. rewrite M. left. reflexivity.
      + destruct (box_runs p F (Node t ks) st O1 ltac:(lia) (R _ (or_introl eq_refl)) (NS _ _ (or_introl eq_refl)) I) as (a & sa & E & I1).
        exists a, sa. split; [exact E|]. split; [exact I1|]. intros _. rewrite tr_node in E. bind_inv E. destruct a0 as [ks1 s1].
        destruct (8 + blen (encs ks1) <? 4294967296); [|discriminate]. apply ok_pair in E. destruct E as [<- _].
        cbn [encs enc app be32]. discriminate.
    - exists [b], st. split; [reflexivity|]. split; [exact I|]. intros M. unfold moof in M. rewrite M in BI. discriminate. }
  destruct T as (a & sa & -> & I1 & NE). cbn [bind].
  destruct (IH sa O2 ltac:(lia) (fun x H => R x (or_intror H)) (fun t ks H => NS t ks (or_intror H)) I1) as (g & sb & -> & I2 & NE2).
  cbn [bind]. do 2 eexists. split; [reflexivity|]. split; [exact I2|].
  unfold groups_bytes in *. cbn [flat_map snd]. rewrite encs_app. intros (x & [->|Hx] & M) Z; apply app_eq_nil in Z.
  - exact (NE M (proj1 Z)).
  - exact (NE2 (ex_intro _ x (conj Hx M)) (proj2 Z)).
Qed.
Lemma filter_runs : forall p l, fits p -> sendable (shift_of p) l -> mp_is_ttml p = false -> mp_insert_sidx p = false ->
  mp_emsg_last p = false -> exists out st, media_filter p (encs l) = Ok (out, st) /\ out <> [].
Proof.
  intros p l F [OK SZ MO R NS] TT SX EM. unfold media_filter. rewrite TT. cbn [bind].
  rewrite (mp4_filter_tree (m_class p) leaf_ok (lf p)) with (inv := fun st => 0 <= ms_size_change st); auto.
  - destruct (tops_run p F l (m_init p None) OK SZ R NS) as (g & st & -> & _ & NE); [split; [cbn; lia|reflexivity]|].
    cbn [bind fc_finalize m_class]. unfold m_finalize. rewrite SX, EM. destruct (walk_boxes (group_sizes g) 0 0 0). cbn [bind].
    do 2 eexists. split; [reflexivity|]. apply NE. exact MO.
  - intros. eapply lf_doc; eauto.
  - intros. apply lf_leaf; auto.
  - cbn. lia.
Qed.
