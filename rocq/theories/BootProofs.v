From Verif Require Import Base BaseProofs BytesModel BytesProofs BoxSpec Mp4Proofs ChunkModel ChunkParse ReadersModel
  ReadersProofs HeadSpec HeadProofs BootModel BootSpec.
Open Scope Z_scope.

Lemma items_read : forall A (f : bytes -> result (A * bytes)) (enc : A -> bytes) l rest,
  Forall (fun a => forall rest, f (enc a ++ rest) = Ok (a, rest)) l ->
  items (List.length l) f (List.concat (map enc l) ++ rest) = Ok (l, rest).
Proof.
  intros A f enc l rest H. induction H as [|a l E F IH]; [reflexivity|]. cbn [List.length items map List.concat].
  rewrite <- app_assoc, E. cbn [bind]. rewrite IH. reflexivity.
Qed.
Lemma zstring_read : forall s rest, text_ok s -> zstring ((s ++ [0]) ++ rest) = Ok (s, rest).
Proof.
  induction 1 as [|x s X F IH]; [reflexivity|]. cbn [app zstring]. destruct (Z.eqb_spec x 0); [lia|]. rewrite IH. reflexivity.
Qed.
Lemma texts_read : forall l rest, Forall text_ok l -> items (List.length l) zstring (texts_bytes l ++ rest) = Ok (l, rest).
Proof.
  intros l rest H. unfold texts_bytes. apply items_read. eapply Forall_impl; [|exact H]. intros s S r. apply zstring_read, S.
Qed.
Lemma texts_len : forall l, blen (texts_bytes l) = texts_size l.
Proof.
  induction l as [|s l IH]; [reflexivity|]. unfold texts_bytes in *. cbn [map List.concat texts_size]. rewrite !blen_app, IH. change (blen [0]) with 1. lia.
Qed.
Lemma fits32 : forall x, fits 32 x -> 0 <= x < 4294967296. Proof. intros x H. exact H. Qed.
Lemma fits64 : forall x, fits 64 x -> 0 <= x < 18446744073709551616. Proof. intros x H. exact H. Qed.
Lemma bit_cases : forall x, fits 1 x -> x = 0 \/ x = 1.
Proof. intros x H. unfold fits in H. change (2 ^ 1) with 2 in H. lia. Qed.
Lemma two_cases : forall x, fits 2 x -> x = 0 \/ x = 1 \/ x = 2 \/ x = 3.
Proof. intros x H. unfold fits in H. change (2 ^ 2) with 4 in H. lia. Qed.
Lemma send_id : forall f x rest, fits (id_width f) x -> send (if f =? 0 then 2 else 4) (id_bytes f x ++ rest) = Ok (x, rest).
Proof. intros f x rest H. unfold id_bytes, id_width in *. destruct (f =? 0); [apply send2|apply send4]; exact H. Qed.

(** head and content of a box with version and flags *)
Lemma head_read : forall t pre post v flags c, blen t = 4 -> fits 8 v -> fits 24 flags ->
  let b := plain_box t (versioned v flags ++ c) in
  full_at (pre ++ b ++ post) (blen pre) = Ok (v, flags) /\
  bslice (blen pre + 12) (blen pre + blen b) (pre ++ b ++ post) = c.
Proof.
  intros t pre post v flags c T V F b. unfold fits in V, F. change (2 ^ 8) with 256 in V. change (2 ^ 24) with 16777216 in F.
  unfold b, plain_box, versioned. set (n := be32 (8 + _)). assert (LN : blen n = 4) by reflexivity. split.
  - rewrite <- !app_assoc. rewrite (app_assoc pre), (app_assoc (pre ++ n)). apply full_at_ok; [|lia|lia]. rewrite !blen_app, LN, T. lia.
  - rewrite <- !app_assoc. rewrite (app_assoc pre), (app_assoc (pre ++ n)), (app_assoc ((pre ++ n) ++ t)).
    apply slice_at; rewrite !blen_app, ?LN, ?T, blen_be32; lia.
Qed.

Lemma afra_read : forall pre post v flags a, fits 8 v -> fits 24 flags -> afra_proper a ->
  (fa_ids a = fa_offsets a \/ fa_globals a = []) ->
  let b := plain_box (bstr "afra") (afra_content v flags a) in afra_at (pre ++ b ++ post) (blen pre) (blen b) = Ok a.
Proof.
  intros pre post v flags a V F (I & O & G & R & S & NE & NG & GZ & E & GL) W b. unfold afra_at, b, afra_content.
  set (c := [_] ++ _). destruct (head_read (bstr "afra") pre post v flags c eq_refl V F) as [H1 H2]. rewrite H1. cbn [bind]. rewrite H2. unfold c.
  rewrite send1. cbn [bind].
  assert (B1 : Z.land (Z.shiftr (fa_ids a * 128 + fa_offsets a * 64 + fa_global a * 32) 7) 1 = fa_ids a /\
               Z.land (Z.shiftr (fa_ids a * 128 + fa_offsets a * 64 + fa_global a * 32) 6) 1 = fa_offsets a /\
               Z.land (Z.shiftr (fa_ids a * 128 + fa_offsets a * 64 + fa_global a * 32) 5) 1 = fa_global a /\
               Z.land (fa_ids a * 128 + fa_offsets a * 64 + fa_global a * 32) 31 = fa_reserved a).
  { rewrite R. destruct (bit_cases _ I) as [-> | ->], (bit_cases _ O) as [-> | ->], (bit_cases _ G) as [-> | ->]; vm_compute; auto. }
  destruct B1 as (-> & -> & -> & ->). rewrite send4 by exact S. cbn [bind]. unfold small in *. rewrite send4 by lia. cbn [bind]. rewrite Nat2Z.id.
  rewrite (items_read _ (afra_entry (fa_offsets a)) (entry_bytes (fa_offsets a))).
  2:{ eapply Forall_impl; [|exact E]. intros [t o] [P Q] r. unfold entry_bytes, afra_entry. cbn [fst snd] in *. rewrite <- app_assoc.
      rewrite send8 by exact P. cbn [bind]. rewrite send_wide by exact Q. reflexivity. }
  cbn [bind]. destruct (Z.eqb_spec (fa_global a) 0) as [Z0|Z0].
  - cbn [bind]. change (Z.to_nat 0) with 0%nat. cbn [items bind]. rewrite <- (GZ Z0). destruct a; reflexivity.
  - rewrite send4 by lia. cbn [bind]. rewrite Nat2Z.id. rewrite <- (app_nil_r (List.concat _)).
    destruct W as [W|W].
    + rewrite (items_read _ (afra_global (fa_ids a)) (global_bytes (fa_ids a) (fa_offsets a))).
      * destruct a; reflexivity.
      * eapply Forall_impl; [|exact GL]. intros ((((t & s) & f) & ao) & o) (P1 & P2 & P3 & P4 & P5) r.
        unfold global_bytes, afra_global. rewrite <- W in *. rewrite <- !app_assoc. rewrite send8 by exact P1. cbn [bind].
        rewrite send_id by exact P2. cbn [bind]. rewrite send_id by exact P3. cbn [bind]. rewrite send_wide by exact P4. cbn [bind].
        rewrite send_wide by exact P5. reflexivity.
    + rewrite W. cbn [List.length items bind]. rewrite <- W. destruct a; reflexivity.
Qed.
Lemma asrt_read : forall pre post v flags s, fits 8 v -> fits 24 flags -> asrt_proper s ->
  let b := plain_box (bstr "asrt") (asrt_content v flags s) in asrt_at (pre ++ b ++ post) (blen pre) (blen b) = Ok s.
Proof.
  intros pre post v flags s V F ((QN & Q) & N & S) b. unfold asrt_at, b, asrt_content.
  set (c := counted _ ++ _). destruct (head_read (bstr "asrt") pre post v flags c eq_refl V F) as [H1 H2]. rewrite H1. cbn [bind]. rewrite H2. unfold c, counted.
  change (?x :: ?t) with ([x] ++ t) at 1. rewrite <- !app_assoc, send1. cbn [bind]. rewrite Nat2Z.id, texts_read by exact Q. cbn [bind].
  unfold small in N. rewrite send4 by lia. cbn [bind]. rewrite Nat2Z.id, <- (app_nil_r (List.concat _)).
  rewrite (items_read _ asrt_entry pair_bytes); [destruct s; reflexivity|].
  eapply Forall_impl; [|exact S]. intros [x y] [P1 P2] r. unfold asrt_entry, pair_bytes. cbn [fst snd] in *. rewrite <- app_assoc.
  rewrite send4 by exact P1. cbn [bind]. rewrite send4 by exact P2. reflexivity.
Qed.
Lemma afrt_read : forall pre post v flags f, fits 8 v -> fits 24 flags -> afrt_proper f ->
  let b := plain_box (bstr "afrt") (afrt_content v flags f) in afrt_at (pre ++ b ++ post) (blen pre) (blen b) = Ok f.
Proof.
  intros pre post v flags f V F (SC & (QN & Q) & N & R) b. unfold afrt_at, b, afrt_content.
  set (c := be32 (ft_scale f) ++ _). destruct (head_read (bstr "afrt") pre post v flags c eq_refl V F) as [H1 H2]. rewrite H1. cbn [bind]. rewrite H2. unfold c, counted.
  rewrite send4 by exact SC. cbn [bind].
  change (Z.of_nat (List.length (ft_qualities f)) :: ?t) with ([Z.of_nat (List.length (ft_qualities f))] ++ t). rewrite <- !app_assoc, send1. cbn [bind].
  rewrite Nat2Z.id, texts_read by exact Q. cbn [bind].
  unfold small in N. rewrite send4 by lia. cbn [bind]. rewrite Nat2Z.id, <- (app_nil_r (List.concat _)).
  rewrite (items_read _ afrt_entry run_bytes); [destruct f; reflexivity|].
  eapply Forall_impl; [|exact R]. intros [x t d o] (P1 & P2 & P3 & P4) r. unfold afrt_entry, run_bytes. cbn [fr_first fr_time fr_dur fr_disc] in *.
  rewrite <- !app_assoc. rewrite send4 by exact P1. cbn [bind]. rewrite send8 by exact P2. cbn [bind]. rewrite send4 by exact P3. cbn [bind].
  destruct (Z.eqb_spec d 0) as [D|D].
  - destruct o as [z|]; [|exfalso; apply (proj1 P4 D); reflexivity]. rewrite send1. reflexivity.
  - destruct o as [z|]; [exfalso; apply D, P4; discriminate|]. reflexivity.
Qed.

Lemma inner_read : forall A (at_box : bytes -> Z -> Z -> result A) (enc : A -> bytes) t (content : A -> bytes) l pre rest post p,
  blen t = 4 -> (forall a, enc a = plain_box t (content a)) ->
  Forall (fun a => (forall pre post, at_box (pre ++ enc a ++ post) (blen pre) (blen (enc a)) = Ok a) /\ blen (enc a) < 4294967296) l ->
  p = blen pre ->
  inner_boxes (List.length l) at_box (pre ++ List.concat (map enc l) ++ post) p (List.concat (map enc l) ++ rest) =
    Ok (l, p + blen (List.concat (map enc l)), rest).
Proof.
  intros A at_box enc t content l pre rest post p T EN H. revert pre p. induction H as [|a l [R L] F IH]; intros pre p P.
  - cbn [List.length inner_boxes map List.concat app]. rewrite blen_nil, Z.add_0_r. reflexivity.
  - cbn [List.length inner_boxes map List.concat]. rewrite <- !app_assoc.
    assert (SZ : blen (enc a) = 8 + blen (content a)) by (rewrite EN; unfold plain_box; rewrite !blen_app, blen_be32, T; lia).
    assert (I : enc a ++ List.concat (map enc l) ++ rest = be32 (8 + blen (content a)) ++ t ++ content a ++ List.concat (map enc l) ++ rest).
    { rewrite (EN a). unfold plain_box. rewrite <- !app_assoc. reflexivity. }
    rewrite I. pose proof (blen_nonneg (content a)). rewrite send4 by lia. cbn [bind]. rewrite send_f by (exact T || lia). cbn [bind].
    rewrite P, <- SZ, R. cbn [bind]. replace (blen (enc a) - 8) with (blen (content a)) by lia. rewrite send_z. cbn [bind].
    rewrite (app_assoc pre (enc a)). rewrite (IH (pre ++ enc a)) by (rewrite blen_app; reflexivity). cbn [bind fst snd].
    rewrite blen_app. f_equal. f_equal. f_equal. lia.
Qed.
Lemma abst_read : forall pre post v flags a, fits 8 v -> fits 24 flags -> abst_proper a ->
  List.length (ab_qualities a) = List.length (ab_servers a) ->
  let b := plain_box (bstr "abst") (abst_content v flags a) in abst_at (pre ++ b ++ post) (blen pre) (blen b) = Ok a.
Proof.
  intros pre post v flags a V F ((P1 & P2 & P3 & P4) & (P5 & P6 & P7) & (P8 & P9 & P10) & ((SN & S) & (QN & Q) & QC) & (GN & G) & (FN & FR)) EQ b.
  unfold abst_at. unfold b, abst_content.
  set (c := be32 (ab_version a) ++ _). destruct (head_read (bstr "abst") pre post v flags c eq_refl V F) as [H1 H2]. rewrite H1. cbn [bind]. rewrite H2.
  set (sb := List.concat (map asrt_box (ab_segments a))). set (fb := List.concat (map afrt_box (ab_fragments a))).
  set (h1 := be32 (8 + blen (versioned v flags ++ c)) ++ bstr "abst" ++ versioned v flags ++ be32 (ab_version a) ++
       [ab_profile a * 64 + ab_live a * 32 + ab_update a * 16] ++ be32 (ab_scale a) ++ be64 (ab_time a) ++ be64 (ab_smpte a) ++
       (ab_movie a ++ [0]) ++ counted (ab_servers a) ++ counted (ab_qualities a) ++ (ab_drm a ++ [0]) ++ (ab_meta a ++ [0]) ++
       [Z.of_nat (List.length (ab_segments a))]).
  assert (L1 : blen h1 = 38 + blen (ab_movie a) + 1 + texts_size (ab_servers a) + 1 + texts_size (ab_qualities a) + 2 + blen (ab_drm a) + blen (ab_meta a) + 1).
  { unfold h1, counted, versioned. change (?x :: texts_bytes ?t) with ([x] ++ texts_bytes t). rewrite !blen_app, !blen_be32, !texts_len.
    change (blen (be64 (ab_time a))) with 8. change (blen (be64 (ab_smpte a))) with 8. change (blen (bstr "abst")) with 4. unfold blen. cbn [List.length]. lia. }
  assert (D1 : pre ++ plain_box (bstr "abst") (versioned v flags ++ c) ++ post =
               (pre ++ h1) ++ sb ++ ([Z.of_nat (List.length (ab_fragments a))] ++ fb ++ post)).
  { unfold plain_box, h1. unfold c at 2. fold sb fb. rewrite <- !app_assoc. reflexivity. }
  assert (D2 : pre ++ plain_box (bstr "abst") (versioned v flags ++ c) ++ post =
               (pre ++ h1 ++ sb ++ [Z.of_nat (List.length (ab_fragments a))]) ++ fb ++ post).
  { rewrite D1. rewrite <- !app_assoc. reflexivity. }
  set (data := pre ++ plain_box (bstr "abst") (versioned v flags ++ c) ++ post) in *. clearbody data.
  unfold c. fold sb fb. rewrite send4 by exact P1. cbn [bind]. rewrite send1. cbn [bind]. rewrite send4 by exact P5. cbn [bind].
  rewrite send8 by exact P6. cbn [bind]. rewrite send8 by exact P7. cbn [bind]. rewrite zstring_read by exact P8. cbn [bind].
  unfold counted at 1. change ((Z.of_nat (List.length (ab_servers a)) :: ?t) ++ ?r) with ([Z.of_nat (List.length (ab_servers a))] ++ t ++ r).
  rewrite send1. cbn [bind]. rewrite Nat2Z.id, texts_read by exact S. cbn [bind].
  unfold counted. change ((Z.of_nat (List.length (ab_qualities a)) :: ?t) ++ ?r) with ([Z.of_nat (List.length (ab_qualities a))] ++ t ++ r).
  rewrite send1. cbn [bind]. rewrite <- EQ, texts_read by exact Q. cbn [bind].
  rewrite zstring_read by exact P9. cbn [bind]. rewrite zstring_read by exact P10. cbn [bind]. rewrite send1. cbn [bind]. rewrite Nat2Z.id.
  rewrite D1 at 1. unfold sb at 1 2.
  rewrite (inner_read _ asrt_at asrt_box (bstr "asrt") (asrt_content 0 0)).
  2: reflexivity. 2: reflexivity.
  2:{ eapply Forall_impl; [|exact G]. intros s [PS LS]. split; [|exact LS]. intros pr po. apply asrt_read; [unfold fits; lia|unfold fits; lia|exact PS]. }
  2:{ rewrite blen_app, L1. lia. }
  cbn [bind fst snd]. rewrite send1. cbn [bind]. rewrite Nat2Z.id. rewrite D2. unfold fb. rewrite <- (app_nil_r (List.concat (map afrt_box _))) at 2.
  rewrite (inner_read _ afrt_at afrt_box (bstr "afrt") (afrt_content 0 0)).
  2: reflexivity. 2: reflexivity.
  2:{ eapply Forall_impl; [|exact FR]. intros s [PS LS]. split; [|exact LS]. intros pr po. apply afrt_read; [unfold fits; lia|unfold fits; lia|exact PS]. }
  2:{ unfold sb. rewrite !blen_app, L1. change (blen [_]) with 1. lia. }
  cbn [bind fst snd].
  assert (B : Z.land (Z.shiftr (ab_profile a * 64 + ab_live a * 32 + ab_update a * 16) 6) 3 = ab_profile a /\
              Z.land (Z.shiftr (ab_profile a * 64 + ab_live a * 32 + ab_update a * 16) 5) 1 = ab_live a /\
              Z.land (Z.shiftr (ab_profile a * 64 + ab_live a * 32 + ab_update a * 16) 4) 1 = ab_update a).
  { destruct (two_cases _ P2) as [-> | [-> | [-> | ->]]], (bit_cases _ P3) as [-> | ->], (bit_cases _ P4) as [-> | ->]; vm_compute; auto. }
  destruct B as (-> & -> & ->). rewrite <- QC. destruct a; reflexivity.
Qed.
