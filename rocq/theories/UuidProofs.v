From Verif Require Import Base BaseProofs BytesModel BytesProofs BoxSpec Mp4Proofs ChunkModel ChunkParse ReadersModel
  ReadersProofs HeadSpec HeadProofs BootModel BootProofs UuidModel UuidSpec.
Open Scope Z_scope.

Lemma uuid_read : forall pre post type v flags c, blen type = 16 -> fits 8 v -> fits 24 flags ->
  let b := uuid_box type v flags c in
  uuid_at (pre ++ b ++ post) (blen pre) = Ok (type, v, flags) /\
  bslice (blen pre + uuid_content_at) (blen pre + blen b) (pre ++ b ++ post) = c.
Proof.
  intros pre post type v flags c T V F b. unfold fits in V, F. change (2 ^ 8) with 256 in V. change (2 ^ 24) with 16777216 in F.
  unfold b, uuid_box, plain_box, versioned, uuid_content_at. set (n := be32 (8 + _)). assert (LN : blen n = 4) by reflexivity.
  assert (LU : blen (bstr "uuid") = 4) by reflexivity. split.
  - rewrite <- !app_assoc.
    assert (FA : full_at (((pre ++ n ++ bstr "uuid") ++ type) ++ be32 (v * 16777216 + flags) ++ c ++ post) (blen pre + 16) = Ok (v, flags)).
    { apply full_at_ok; [|lia|lia]. rewrite !blen_app, LN, LU, T. lia. }
    unfold full_at in FA. unfold uuid_at. rewrite <- !app_assoc in FA.
    replace (blen pre + 16 + 8) with (blen pre + 24) in FA by lia. replace (blen pre + 16 + 9) with (blen pre + 25) in FA by lia.
    replace (blen pre + 16 + 12) with (blen pre + 28) in FA by lia.
    destruct (byte_at 0 _) as [v'|e]; cbn [bind] in *; [|discriminate].
    destruct (str_to_sint32 _) as [f'|e]; cbn [bind] in *; [|discriminate]. injection FA as -> ->. f_equal. f_equal. f_equal.
    rewrite (app_assoc pre), (app_assoc (pre ++ n)). apply slice_at; rewrite !blen_app, LN, LU; lia.
  - rewrite <- !app_assoc. rewrite (app_assoc pre), (app_assoc (pre ++ n)), (app_assoc ((pre ++ n) ++ _)), (app_assoc (((pre ++ n) ++ _) ++ _)).
    apply slice_at; rewrite !blen_app, ?LN, ?LU, ?T, blen_be32; lia.
Qed.
Lemma pair_read : forall v p rest, pair_ok v p -> time_pair v (pair_at v p ++ rest) = Ok (p, rest).
Proof.
  intros v [t d] rest [T D]. unfold time_pair, pair_at. cbn [fst snd] in *. rewrite <- app_assoc. rewrite send_wide by exact T. cbn [bind].
  rewrite send_wide by exact D. reflexivity.
Qed.
Lemma next_read : forall v l, Z.of_nat (List.length l) < 256 -> Forall (pair_ok v) l -> tfrf_of (next_content v l) v = Ok l.
Proof.
  intros v l N F. unfold tfrf_of, next_content. change (?x :: ?r) with ([x] ++ r) at 1. rewrite send1. cbn [bind]. rewrite Nat2Z.id, <- (app_nil_r (List.concat _)).
  rewrite (items_read _ (time_pair v) (pair_at v)); [reflexivity|]. eapply Forall_impl; [|exact F]. intros p P r. apply pair_read, P.
Qed.
