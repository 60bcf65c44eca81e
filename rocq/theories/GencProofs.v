From Verif Require Import Base BaseProofs BytesModel BytesProofs BoxSpec Mp4Proofs ChunkModel ChunkParse ReadersModel ReadersProofs HeadSpec GencModel GencSpec.
Open Scope Z_scope.

Lemma lookup_set : forall n start v m i,
  lookup i (set_samples n start v m) = if (start <=? i) && (i <? start + Z.of_nat n) then Some v else lookup i m.
Proof.
  induction n as [|n IH]; intros start v m i; cbn [set_samples lookup].
  - destruct (Z.leb_spec start i), (Z.ltb_spec i (start + Z.of_nat 0)); cbn [andb]; try reflexivity; lia.
  - rewrite IH. destruct (Z.eqb_spec (start + Z.of_nat n) i), (Z.leb_spec start i), (Z.ltb_spec i (start + Z.of_nat n)), (Z.ltb_spec i (start + Z.of_nat (S n)));
      cbn [andb]; try reflexivity; lia.
Qed.
Lemma group_read : forall groups data sbgp sgpd tenc i index m, grouped data sbgp sgpd tenc i groups -> 0 <= index ->
  exists m', group_loop (List.length groups) data sbgp sgpd tenc i index m = Ok m' /\
    forall k, lookup k m' = if index <=? k then match nth_error (spread groups) (Z.to_nat (k - index)) with Some v => Some v | None => lookup k m end
                            else lookup k m.
Proof.
  induction groups as [|[c v] groups IH]; intros data sbgp sgpd tenc i index m G N.
  - exists m. split; [reflexivity|]. intros k. destruct (index <=? k); [|reflexivity]. unfold spread. cbn [flat_map]. destruct (Z.to_nat (k - index)); reflexivity.
  - cbn [grouped] in G. destruct G as (C & (g & E & S) & R). cbn [List.length group_loop]. rewrite E. cbn [bind].
    assert (V : (if g =? 0 then tenc_default data tenc
        else match sgpd with Some s => sgpd_entry data (ch_offset s) (ch_size s) (g - 1) | None => Err "AttributeError" end) = Ok v).
    { unfold stands in S. destruct (g =? 0); [exact S|]. destruct S as (s & -> & S). exact S. }
    rewrite V. cbn [bind].
    destruct (IH data sbgp sgpd tenc (i + 1) (index + c) (set_samples (Z.to_nat c) index v m) R ltac:(lia)) as (m' & L & K).
    exists m'. split; [exact L|]. intros k. rewrite K, lookup_set, Z2Nat.id by exact C. unfold spread. cbn [flat_map fst snd]. fold (spread groups).
    destruct (Z.leb_spec index k) as [A|A].
    + destruct (Z.leb_spec (index + c) k) as [B|B].
      * rewrite nth_error_app2 by (rewrite repeat_length; lia). rewrite repeat_length. replace (Z.to_nat (k - index) - Z.to_nat c)%nat with (Z.to_nat (k - (index + c))) by lia.
        destruct (nth_error (spread groups) _); [reflexivity|]. destruct (Z.ltb_spec k (index + c)); [lia|]. reflexivity.
      * destruct (Z.ltb_spec k (index + c)); [|lia]. cbn [andb]. rewrite nth_error_app1 by (rewrite repeat_length; lia).
        rewrite nth_error_repeat by lia. reflexivity.
    + destruct (Z.leb_spec (index + c) k); [lia|]. reflexivity.
Qed.
Lemma fill_read : forall n data tenc i m v, tenc_default data tenc = Ok v ->
  exists m', fill_loop n data tenc i m = Ok m' /\
    forall k, lookup k m' = match lookup k m with Some x => Some x | None => if (i <=? k) && (k <? i + Z.of_nat n) then Some v else None end.
Proof.
  induction n as [|n IH]; intros data tenc i m v T.
  - exists m. split; [reflexivity|]. intros k. destruct (lookup k m); [reflexivity|].
    destruct (Z.leb_spec i k), (Z.ltb_spec k (i + Z.of_nat 0)); cbn [andb]; try reflexivity; lia.
  - cbn [fill_loop]. destruct (lookup i m) as [x|] eqn:X.
    + cbn [bind]. destruct (IH data tenc (i + 1) m v T) as (m' & L & K). exists m'. split; [exact L|]. intros k. rewrite K.
      destruct (lookup k m) eqn:Y; [reflexivity|].
      destruct (Z.eqb_spec i k) as [->|]; [congruence|].
      destruct (Z.leb_spec i k), (Z.leb_spec (i + 1) k), (Z.ltb_spec k (i + 1 + Z.of_nat n)), (Z.ltb_spec k (i + Z.of_nat (S n))); cbn [andb]; try reflexivity; lia.
    + rewrite T. cbn [bind]. destruct (IH data tenc (i + 1) ((i, v) :: m) v T) as (m' & L & K). exists m'. split; [exact L|]. intros k. rewrite K. cbn [lookup].
      destruct (Z.eqb_spec i k) as [->|].
      * rewrite X. destruct (Z.leb_spec k k), (Z.ltb_spec k (k + Z.of_nat (S n))); cbn [andb]; try reflexivity; lia.
      * destruct (lookup k m); [reflexivity|].
        destruct (Z.leb_spec i k), (Z.leb_spec (i + 1) k), (Z.ltb_spec k (i + 1 + Z.of_nat n)), (Z.ltb_spec k (i + Z.of_nat (S n))); cbn [andb]; try reflexivity; lia.
Qed.
Lemma never_found : forall l s, get_sibling l (PStr s) = None.
Proof. induction l as [|c l IH]; intros s; [reflexivity|]. cbn [get_sibling py_eq]. apply IH. Qed.
Lemma tenc_read : forall pre post v flags pattern e iv kid, tenc_proper v flags pattern e iv kid ->
  tenc_info (pre ++ tenc_box v flags pattern e iv kid ++ post) (blen pre) = Ok (pattern * 256 + e, iv, kid).
Proof.
  intros pre post v flags pattern e iv kid (V & F & P & _ & E & I & K). unfold fits in *. change (2 ^ 8) with 256 in *. change (2 ^ 1) with 2 in *. change (2 ^ 7) with 128 in *.
  unfold tenc_box, plain_box, versioned. set (n := be32 (8 + _)). assert (LN : blen n = 4) by reflexivity.
  set (w := be32 (v * 16777216 + flags)). assert (LW : blen w = 4) by apply blen_be32.
  set (h := pre ++ n ++ bstr "tenc" ++ w). assert (LH : blen h = blen pre + 12) by (unfold h; rewrite !blen_app, LN, LW; change (blen (bstr "tenc")) with 4; lia).
  replace (pre ++ (n ++ bstr "tenc" ++ w ++ [0; pattern; e; iv] ++ kid) ++ post) with (h ++ [0; pattern; e] ++ [iv] ++ kid ++ post)
    by (unfold h; rewrite <- !app_assoc; reflexivity).
  unfold tenc_info. rewrite (slice_at h [0; pattern; e]) by (rewrite ?LH; try reflexivity; change (blen [0; pattern; e]) with 3; lia).
  unfold str_to_sint32. change (blen [0; 0; pattern; e] =? 4) with true. cbv iota.
  assert (Q : be_val [0; 0; pattern; e] = pattern * 256 + e) by (unfold be_val; cbn [be_val_acc]; lia). rewrite Q.
  destruct (Z.ltb_spec (pattern * 256 + e) 2147483648); [|lia]. cbn [bind].
  unfold s8_at, u8_at. rewrite (app_assoc h).
  rewrite (slice_at (h ++ [0; pattern; e]) [iv]) by (rewrite ?blen_app, ?LH; change (blen [0; pattern; e]) with 3; change (blen [iv]) with 1; lia).
  change (blen [iv] =? 1) with true. cbv iota. replace (be_val [iv]) with iv by (unfold be_val; cbn [be_val_acc]; lia). cbn [bind]. destruct (Z.ltb_spec iv 128); [|lia]. cbn [bind].
  rewrite (app_assoc (h ++ _)). rewrite (slice_at _ kid) by (rewrite ?blen_app, ?LH, ?K; change (blen [0; pattern; e]) with 3; change (blen [iv]) with 1; lia).
  reflexivity.
Qed.
