From Verif Require Import Base BaseProofs BytesModel BytesProofs BoxSpec Mp4Proofs ChunkModel ChunkParse TablesModel ReadersModel
  ReadersProofs HeadModel HeadSpec.
Open Scope Z_scope.

Lemma be16_val : forall z, fits 16 z -> be_val (be16 z) = z.
Proof.
  intros z H. unfold fits in H. change (2 ^ 16) with 65536 in H. unfold be_val, be16. cbn [be_val_acc].
  assert (D := Z.div_mod z 256 ltac:(lia)). lia.
Qed.
Lemma byte_val : forall z, be_val [z] = z.
Proof. intros. unfold be_val. cbn [be_val_acc]. lia. Qed.
Lemma send1 : forall x rest, send 1 ([x] ++ rest) = Ok (x, rest).
Proof. intros. rewrite send_f by (reflexivity || lia). rewrite byte_val. reflexivity. Qed.
Lemma send2 : forall x rest, fits 16 x -> send 2 (be16 x ++ rest) = Ok (x, rest).
Proof. intros. rewrite send_f by (reflexivity || lia). rewrite be16_val by assumption. reflexivity. Qed.
Lemma send4 : forall x rest, 0 <= x < 4294967296 -> send 4 (be32 x ++ rest) = Ok (x, rest).
Proof. intros. rewrite send_f by (reflexivity || lia). rewrite be32_val by assumption. reflexivity. Qed.
Lemma send8 : forall x rest, 0 <= x < 18446744073709551616 -> send 8 (be64 x ++ rest) = Ok (x, rest).
Proof. intros. rewrite send_f by (reflexivity || lia). rewrite be64_val by assumption. reflexivity. Qed.

(** ** pssh *)
Lemma kids_read : forall kids a b p, Forall (fun k => blen k = 16) kids -> p = blen a ->
  kids_at (List.length kids) (a ++ List.concat kids ++ b) p = (kids, p + blen (List.concat kids)).
Proof.
  induction kids as [|k kids IH]; intros a b p F P; cbn [List.length kids_at List.concat].
  - rewrite blen_nil, Z.add_0_r. reflexivity.
  - inversion F as [|? ? K F']; subst. rewrite <- app_assoc. rewrite (app_assoc a k).
    rewrite (IH (a ++ k) b) by (try assumption; rewrite blen_app; lia). rewrite <- (app_assoc a k).
    rewrite slice_at by lia. rewrite blen_app. f_equal. lia.
Qed.
Lemma concat_len : forall kids, Forall (fun k => blen k = 16) kids -> blen (List.concat kids) = 16 * Z.of_nat (List.length kids).
Proof.
  induction 1 as [|k l K F IH]; [reflexivity|]. cbn [List.concat List.length]. rewrite blen_app, IH, K. lia.
Qed.
Lemma pssh_read : forall pre post v flags system kids d, pssh_proper v flags system kids d ->
  pssh_at (pre ++ plain_box (bstr "pssh") (pssh_content v flags system kids d) ++ post) (blen pre) = Ok (mk_pssh system kids (blen d)).
Proof.
  intros pre post v flags system kids d (V & F & S & K & K0 & N & D). unfold fits in *.
  change (2 ^ 8) with 256 in V. change (2 ^ 24) with 16777216 in F.
  unfold plain_box, pssh_content. set (n := be32 (8 + _)). assert (LN : blen n = 4) by reflexivity.
  set (mid := if v =? 0 then [] else _). unfold versioned. rewrite <- !app_assoc. set (tl := be32 (blen d) ++ d ++ post).
  set (data := pre ++ n ++ bstr "pssh" ++ be32 (v * 16777216 + flags) ++ system ++ mid ++ tl).
  assert (FA : full_at data (blen pre) = Ok (v, flags)).
  { unfold data. rewrite (app_assoc pre), (app_assoc (pre ++ n)). apply full_at_ok; [|lia|lia].
    rewrite !blen_app, LN. change (blen (bstr "pssh")) with 4. lia. }
  set (h := pre ++ n ++ bstr "pssh" ++ be32 (v * 16777216 + flags)).
  assert (LH : blen h = blen pre + 12).
  { unfold h. rewrite !blen_app, LN, blen_be32. change (blen (bstr "pssh")) with 4. lia. }
  assert (E : data = h ++ system ++ mid ++ tl) by (unfold data, h; rewrite <- !app_assoc; reflexivity).
  unfold pssh_at. rewrite FA. cbn [bind]. rewrite E.
  rewrite (slice_at h system (mid ++ tl)) by lia.
  assert (DL : 0 <= blen d < 4294967296) by (pose proof (blen_nonneg d); lia).
  destruct (Z.ltb_spec 0 v) as [P|P].
  - assert (M : mid = be32 (Z.of_nat (List.length kids)) ++ List.concat kids) by (unfold mid; destruct (Z.eqb_spec v 0); [lia|reflexivity]).
    rewrite M, <- !app_assoc. rewrite (app_assoc h system). rewrite u32_at_ok by (rewrite ?blen_app; lia). cbn [bind].
    rewrite Nat2Z.id. rewrite (app_assoc (h ++ system)).
    rewrite kids_read by (try assumption; rewrite !blen_app, blen_be32; lia). cbn [bind].
    rewrite (app_assoc _ (List.concat kids)). unfold tl. rewrite u32_at_ok; [reflexivity| |exact DL].
    rewrite !blen_app, blen_be32. lia.
  - assert (v = 0) by lia. assert (M : mid = []) by (unfold mid; destruct (Z.eqb_spec v 0); [reflexivity|lia]).
    rewrite M, K0 by assumption. cbn [app bind]. rewrite (app_assoc h system). unfold tl.
    rewrite u32_at_ok; [reflexivity| |exact DL]. rewrite blen_app. lia.
Qed.

(** ** hvcC *)
Lemma land_low : forall n a b, 0 <= n -> fits n b -> Z.land (a * 2 ^ n + b) (Z.ones n) = b.
Proof.
  intros n a b N H. rewrite Z.land_ones by exact N. rewrite Z.add_comm, Z.mod_add by (apply Z.pow_nonzero; lia). apply Z.mod_small. exact H.
Qed.
Lemma shift_high : forall n a b, 0 <= n -> fits n b -> Z.shiftr (a * 2 ^ n + b) n = a.
Proof.
  intros n a b N H. rewrite Z.shiftr_div_pow2 by exact N. rewrite Z.div_add_l by (apply Z.pow_nonzero; lia).
  rewrite Z.div_small by exact H. lia.
Qed.
Lemma units_read : forall us rest, Forall (fun u => fits 16 (blen u)) us ->
  nal_units (List.length us) (List.concat (map unit_bytes us) ++ rest) = Ok (us, rest).
Proof.
  induction 1 as [|u us U F IH]; [reflexivity|]. cbn [List.length nal_units map List.concat]. unfold unit_bytes at 1. rewrite <- !app_assoc.
  rewrite send2 by exact U. cbn [bind]. rewrite send_z. cbn [bind]. rewrite IH. reflexivity.
Qed.
Lemma arrays_read : forall l rest, Forall array_proper l ->
  nal_arrays (List.length l) (List.concat (map array_bytes l) ++ rest) = Ok (l, rest).
Proof.
  induction 1 as [|a l (C & T & N & U) F IH]; [reflexivity|]. cbn [List.length nal_arrays map List.concat]. unfold array_bytes at 1. rewrite <- !app_assoc.
  rewrite send1. cbn [bind]. rewrite send2 by exact N. cbn [bind]. rewrite Nat2Z.id, units_read by exact U. cbn [bind].
  rewrite IH. cbn [bind].
  assert (E1 : Z.land (Z.shiftr (na_complete a * 128 + na_type a) 7) 1 = na_complete a).
  { assert (T7 : fits 7 (na_type a)) by (unfold fits in *; change (2 ^ 7) with 128; change (2 ^ 6) with 64 in T; lia).
    change 128 with (2 ^ 7). rewrite shift_high by (lia || exact T7). change 1 with (Z.ones 1).
    rewrite Z.land_ones by lia. apply Z.mod_small. exact C. }
  assert (E2 : Z.land (na_complete a * 128 + na_type a) 63 = na_type a).
  { replace (na_complete a * 128) with (na_complete a * 2 * 2 ^ 6) by lia. change 63 with (Z.ones 6). apply land_low; [lia|exact T]. }
  rewrite E1, E2. destruct a. reflexivity.
Qed.
Lemma hvcc_read : forall pre post h, hvcc_proper h -> let b := plain_box (bstr "hvcC") (hvcc_content h) in
  hvcc_at (pre ++ b ++ post) (blen pre) (blen b) = Ok h.
Proof.
  intros pre post h ((P1 & P2 & P3 & P4) & (P5 & P6 & P7 & P8) & (P9 & P10 & P11 & P12) & (P13 & P14 & P15 & P16) & P17 & P18 & P19 & P20) b.
  unfold hvcc_at.
  assert (E : bslice (blen pre + 8) (blen pre + blen b) (pre ++ b ++ post) = hvcc_content h).
  { unfold b, plain_box. set (n := be32 (8 + _)). assert (LN : blen n = 4) by reflexivity. rewrite <- !app_assoc.
    rewrite (app_assoc pre), (app_assoc (pre ++ n)). apply slice_at; rewrite !blen_app, ?LN; change (blen (bstr "hvcC")) with 4; lia. }
  rewrite E. unfold hvcc_content. cbn [app].
  change (hv_version h :: ?x :: ?r) with ([hv_version h] ++ [x] ++ r). rewrite send1. cbn [bind]. rewrite send1. cbn [bind].
  rewrite (send_n 4) by (unfold blen in P5; lia). cbn [bind]. rewrite (send_n 6) by (unfold blen in P6; lia). cbn [bind].
  change (hv_level h :: ?r) with ([hv_level h] ++ r). rewrite send1. cbn [bind].
  rewrite send2 by (unfold fits in *; change (2 ^ 16) with 65536; change (2 ^ 12) with 4096 in P8; lia). cbn [bind].
  change (63 * 4 + hv_parallel h :: ?x :: ?y :: ?z :: ?r) with ([63 * 4 + hv_parallel h] ++ [x] ++ [y] ++ [z] ++ r).
  do 4 (rewrite send1; cbn [bind]). rewrite send2 by exact P13. cbn [bind].
  change (?x :: hv_num h :: ?r) with ([x] ++ [hv_num h] ++ r). do 2 (rewrite send1; cbn [bind]).
  rewrite P19 at 1. rewrite Nat2Z.id. rewrite <- (app_nil_r (List.concat _)), arrays_read by exact P20. cbn [bind].
  unfold fits in *. 
  assert (E1 : Z.land (Z.shiftr (hv_space h * 64 + hv_tier h * 32 + hv_profile h) 6) 3 = hv_space h).
  { change 3 with (Z.ones 2). rewrite Z.land_ones, Z.shiftr_div_pow2 by lia. change (2 ^ 6) with 64. 
    rewrite <- Z.add_assoc, Z.div_add_l by lia. cbn in P3, P4. rewrite Z.div_small by lia. rewrite Z.add_0_r. apply Z.mod_small. exact P2. }
  assert (E2 : Z.land (Z.shiftr (hv_space h * 64 + hv_tier h * 32 + hv_profile h) 5) 1 = hv_tier h).
  { change 1 with (Z.ones 1). rewrite Z.land_ones, Z.shiftr_div_pow2 by lia. change (2 ^ 5) with 32 in *. change (2 ^ 1) with 2 in *.
    replace (hv_space h * 64 + hv_tier h * 32) with ((hv_tier h + hv_space h * 2) * 32) by lia. rewrite Z.div_add_l by lia.
    rewrite (Z.div_small (hv_profile h)) by lia. rewrite Z.add_0_r, Z.mod_add by lia. apply Z.mod_small. exact P3. }
  assert (E3 : Z.land (hv_space h * 64 + hv_tier h * 32 + hv_profile h) 31 = hv_profile h).
  { replace (hv_space h * 64 + hv_tier h * 32) with ((hv_tier h + hv_space h * 2) * 2 ^ 5) by lia. change 31 with (Z.ones 5). apply land_low; [lia|exact P4]. }
  assert (E4 : Z.land (15 * 4096 + hv_spatial h) 4095 = hv_spatial h) by (change 4095 with (Z.ones 12); apply (land_low 12); [lia|exact P8]).
  assert (E5 : Z.land (63 * 4 + hv_parallel h) 3 = hv_parallel h) by (apply (land_low 2); [lia|exact P9]).
  assert (E6 : Z.land (63 * 4 + hv_chroma h) 3 = hv_chroma h) by (apply (land_low 2); [lia|exact P10]).
  assert (E7 : Z.land (31 * 8 + hv_luma_depth h) 7 = hv_luma_depth h) by (apply (land_low 3); [lia|exact P11]).
  assert (E8 : Z.land (31 * 8 + hv_chroma_depth h) 7 = hv_chroma_depth h) by (apply (land_low 3); [lia|exact P12]).
  set (w := hv_constant h * 64 + hv_layers h * 8 + hv_nested h * 4 + hv_length_size h).
  change (2 ^ 2) with 4 in *. change (2 ^ 3) with 8 in *. change (2 ^ 1) with 2 in *.
  assert (E9 : Z.land (Z.shiftr w 6) 3 = hv_constant h).
  { change 3 with (Z.ones 2). rewrite Z.land_ones, Z.shiftr_div_pow2 by lia. change (2 ^ 6) with 64. change (2 ^ 2) with 4. unfold w.
    replace (_ + hv_length_size h) with (hv_constant h * 64 + (hv_layers h * 8 + hv_nested h * 4 + hv_length_size h)) by lia.
    rewrite Z.div_add_l by lia. rewrite Z.div_small by lia. rewrite Z.add_0_r. apply Z.mod_small. lia. }
  assert (E10 : Z.land (Z.shiftr w 3) 7 = hv_layers h).
  { change 7 with (Z.ones 3). rewrite Z.land_ones, Z.shiftr_div_pow2 by lia. change (2 ^ 3) with 8. unfold w.
    replace (_ + hv_length_size h) with ((hv_layers h + hv_constant h * 8) * 8 + (hv_nested h * 4 + hv_length_size h)) by lia.
    rewrite Z.div_add_l by lia. rewrite (Z.div_small (hv_nested h * 4 + hv_length_size h)) by lia. rewrite Z.add_0_r, Z.mod_add by lia. apply Z.mod_small. lia. }
  assert (E11 : Z.land (Z.shiftr w 2) 1 = hv_nested h).
  { change 1 with (Z.ones 1). rewrite Z.land_ones, Z.shiftr_div_pow2 by lia. change (2 ^ 2) with 4. change (2 ^ 1) with 2. unfold w.
    replace (_ + hv_length_size h) with ((hv_nested h + (hv_layers h + hv_constant h * 8) * 2) * 4 + hv_length_size h) by lia.
    rewrite Z.div_add_l by lia. rewrite (Z.div_small (hv_length_size h)) by lia. rewrite Z.add_0_r, Z.mod_add by lia. apply Z.mod_small. lia. }
  assert (E12 : Z.land w 3 = hv_length_size h).
  { change 3 with (Z.ones 2). rewrite Z.land_ones by lia. change (2 ^ 2) with 4. unfold w.
    replace (_ + hv_length_size h) with (hv_length_size h + (hv_nested h + (hv_layers h + hv_constant h * 8) * 2) * 4) by lia.
    rewrite Z.mod_add by lia. apply Z.mod_small. lia. }
  rewrite E1, E2, E3, E4, E5, E6, E7, E8, E9, E10, E11, E12. destruct h; reflexivity.
Qed.

(** ** tfma *)
Lemma send_wide : forall v x rest, fits (width v) x -> send (if v =? 0 then 4 else 8) (wide v x ++ rest) = Ok (x, rest).
Proof. intros v x rest H. unfold wide, width, fits in *. destruct (v =? 0); [apply send4|apply send8]; exact H. Qed.
Lemma send_wide_signed : forall v x rest, - 2 ^ (width v - 1) <= x < 2 ^ (width v - 1) ->
  send_signed (if v =? 0 then 4 else 8) (wide v (x mod 2 ^ width v) ++ rest) = Ok (x, rest).
Proof.
  intros v x rest H. unfold send_signed. rewrite send_wide.
  2:{ unfold fits. apply Z.mod_pos_bound. apply Z.pow_pos_nonneg; unfold width; destruct (v =? 0); lia. }
  cbn [bind]. f_equal. f_equal. 
  assert (W : 8 * (if v =? 0 then 4 else 8) = width v) by (unfold width; destruct (v =? 0); reflexivity). rewrite W.
  assert (Q : 2 ^ width v = 2 * 2 ^ (width v - 1) /\ 0 < 2 ^ (width v - 1)) by (unfold width; destruct (v =? 0); split; reflexivity).
  destruct (Z.lt_ge_cases x 0).
  - assert (M : x mod 2 ^ width v = x + 2 ^ width v) by (symmetry; apply Z.mod_unique with (-1); lia). rewrite M.
    destruct (Z.ltb_spec (x + 2 ^ width v) (2 ^ (width v - 1))); lia.
  - rewrite Z.mod_small by lia. destruct (Z.ltb_spec x (2 ^ (width v - 1))); lia.
Qed.
Lemma edits_read : forall v l rest, Forall (edit_proper v) l ->
  adjustments (List.length l) (if v =? 0 then 4 else 8) (List.concat (map (edit_bytes v) l) ++ rest) = Ok l.
Proof.
  intros v l rest H. induction H as [|e l (D & T & R & F) G IH]; [reflexivity|]. cbn [List.length adjustments map List.concat]. unfold edit_bytes at 1.
  rewrite <- !app_assoc. rewrite send_wide by exact D. cbn [bind]. rewrite send_wide_signed by exact T. cbn [bind].
  rewrite send2 by exact R. cbn [bind]. rewrite send2 by exact F. cbn [bind]. rewrite IH. destruct e; reflexivity.
Qed.
Lemma tfma_read : forall pre post v flags l, fits 8 v -> fits 24 flags -> Z.of_nat (List.length l) < 4294967296 -> Forall (edit_proper v) l ->
  let b := plain_box (bstr "tfma") (edits_content v flags l) in
  tfma_at (pre ++ b ++ post) (blen pre) (blen b) = Ok (Z.of_nat (List.length l), l).
Proof.
  intros pre post v flags l V F N P b. unfold fits in V, F. change (2 ^ 8) with 256 in V. change (2 ^ 24) with 16777216 in F. unfold tfma_at.
  unfold b, plain_box, edits_content, versioned. set (n := be32 (8 + _)). assert (LN : blen n = 4) by reflexivity.
  set (c := be32 (Z.of_nat (List.length l)) ++ List.concat (map (edit_bytes v) l)).
  assert (FA : full_at (pre ++ (n ++ bstr "tfma" ++ be32 (v * 16777216 + flags) ++ c) ++ post) (blen pre) = Ok (v, flags)).
  { rewrite <- !app_assoc. rewrite (app_assoc pre), (app_assoc (pre ++ n)). apply full_at_ok; [|lia|lia].
    rewrite !blen_app, LN. change (blen (bstr "tfma")) with 4. lia. }
  rewrite FA. cbn [bind].
  assert (E : bslice (blen pre + 12) (blen pre + blen (n ++ bstr "tfma" ++ be32 (v * 16777216 + flags) ++ c))
                (pre ++ (n ++ bstr "tfma" ++ be32 (v * 16777216 + flags) ++ c) ++ post) = c).
  { rewrite <- !app_assoc. rewrite (app_assoc pre), (app_assoc (pre ++ n)), (app_assoc ((pre ++ n) ++ bstr "tfma")).
    apply slice_at; rewrite !blen_app, ?LN, blen_be32; change (blen (bstr "tfma")) with 4; lia. }
  rewrite E. unfold c. rewrite send4 by lia. cbn [bind]. rewrite Nat2Z.id. rewrite <- (app_nil_r (List.concat _)), edits_read by exact P. reflexivity.
Qed.
