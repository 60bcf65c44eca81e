(** Lemmas for C83: tables of random access points. *)
From Verif Require Import Base BaseProofs BytesModel BytesProofs BoxSpec Mp4Proofs ChunkModel ChunkParse ReadersModel ReadersProofs RunModel RunSpec.
From Coq Require Import Lia ZArith List.
Import ListNotations.
Open Scope Z_scope.

(** ** The fields *)
Definition head_fields (a : access) : list bytes :=
  [be32 (8 + blen (access_payload a)); bstr "tfra"; be32 (ac_version a * 16777216 + ac_flags a); be32 (ac_track a);
   be32 (ac_reserved a * 64 + ac_traf a * 16 + ac_trun a * 4 + ac_sample a); be32 (Z.of_nat (List.length (ac_points a)))].
Lemma head_len : forall a, blen (List.concat (head_fields a)) = 24.
Proof. intros. unfold head_fields. cbn [List.concat]. rewrite !blen_app, !blen_be32. reflexivity. Qed.
Lemma box_fields : forall a, access_box a = List.concat (head_fields a) ++ List.concat (map (point_bytes a) (ac_points a)).
Proof. intros. unfold access_box, head_fields. cbn [List.concat]. unfold access_payload at 2. rewrite <- !app_assoc. reflexivity. Qed.
Definition T (a : access) : tfra := mk_tfra (ac_version a) (ac_traf a) (ac_trun a) (ac_sample a) (Z.of_nat (List.length (ac_points a))).

Lemma sizes : forall r x y z, 0 <= x < 4 -> 0 <= y < 4 -> 0 <= z < 4 ->
  let b := (r * 64 + x * 16 + y * 4 + z) mod 256 in
  Z.shiftr (Z.land b 48) 4 = x /\ Z.shiftr (Z.land b 12) 2 = y /\ Z.land b 3 = z.
Proof.
  intros r x y z X Y W b. assert (E : b = (r mod 4) * 64 + x * 16 + y * 4 + z).
  { unfold b. pose proof (Z.mod_pos_bound r 4 ltac:(lia)). rewrite (Z.div_mod r 4) at 1 by lia.
    replace ((4 * (r / 4) + r mod 4) * 64 + x * 16 + y * 4 + z) with ((r mod 4) * 64 + x * 16 + y * 4 + z + (r / 4) * 256) by lia.
    rewrite Z.mod_add by lia. apply Z.mod_small. lia. }
  clearbody b. pose proof (Z.mod_pos_bound r 4 ltac:(lia)) as R. revert R E. generalize (r mod 4). intros q R E.
  assert (Q : q = 0 \/ q = 1 \/ q = 2 \/ q = 3) by lia. assert (X' : x = 0 \/ x = 1 \/ x = 2 \/ x = 3) by lia.
  assert (Y' : y = 0 \/ y = 1 \/ y = 2 \/ y = 3) by lia. assert (Z' : z = 0 \/ z = 1 \/ z = 2 \/ z = 3) by lia.
  clear X Y W R r. destruct Q as [->|[->|[->| ->]]]; destruct X' as [->|[->|[->| ->]]]; destruct Y' as [->|[->|[->| ->]]]; destruct Z' as [->|[->|[->| ->]]]; subst b; repeat split.
Qed.

Section Table.
  Variables (data : bytes) (o : Z) (a : access).
  Hypothesis OK : access_ok a.
  Hypothesis LIES : lies data o (access_box a).

  Lemma table_at_ok : tfra_at data o = Ok (T a).
  Proof.
    destruct OK as (V & F & TR & R & S1 & S2 & S3 & N & P). destruct LIES as (pre & post & -> & ->). rewrite box_fields. unfold head_fields. cbn [List.concat].
    set (w0 := be32 (8 + _)). set (rows := List.concat _). unfold tfra_at. rewrite <- !app_assoc. rewrite (app_assoc pre), (app_assoc (pre ++ w0)).
    set (h := (pre ++ w0) ++ bstr "tfra"). assert (LH : blen h = blen pre + 8) by (unfold h, w0; rewrite !blen_app, blen_be32; change (blen (bstr "tfra")) with 4; lia).
    rewrite full_at_ok by (try assumption; lia). cbn [bind]. set (w1 := be32 (_ * 16777216 + _)). set (w2 := be32 (ac_track a)). 
    set (w := ac_reserved a * 64 + ac_traf a * 16 + ac_trun a * 4 + ac_sample a). set (w4 := be32 (Z.of_nat _)).
    assert (B : u8_at (h ++ w1 ++ w2 ++ be32 w ++ w4 ++ [] ++ rows ++ post) (blen pre + 19) = Ok (w mod 256)).
    { unfold u8_at. set (b3 := [w / 16777216 mod 256; w / 65536 mod 256; w / 256 mod 256]). change (be32 w) with (b3 ++ [w mod 256]).
      replace (h ++ w1 ++ w2 ++ (b3 ++ [w mod 256]) ++ w4 ++ [] ++ rows ++ post)
        with ((h ++ w1 ++ w2 ++ b3) ++ [w mod 256] ++ (w4 ++ rows ++ post)) by (rewrite <- !app_assoc; reflexivity).
      rewrite slice_at; [reflexivity| |]; unfold w1, w2, b3; rewrite !blen_app, !blen_be32, LH, ?blen_cons, ?blen_nil; lia. }
    rewrite B. cbn [bind].
    replace (h ++ w1 ++ w2 ++ be32 w ++ w4 ++ [] ++ rows ++ post) with ((h ++ w1 ++ w2 ++ be32 w) ++ w4 ++ (rows ++ post)) by (rewrite <- !app_assoc; reflexivity).
    unfold w4. rewrite u32_at_ok; [|unfold w1, w2; rewrite !blen_app, !blen_be32, LH; lia|lia]. cbn [bind].
    destruct (sizes (ac_reserved a) (ac_traf a) (ac_trun a) (ac_sample a) S1 S2 S3) as (E1 & E2 & E3). unfold w. rewrite E1, E2, E3. reflexivity.
  Qed.
  Lemma track_ok : tfra_track data o = Ok (ac_track a).
  Proof.
    destruct OK as (V & F & TR & R & S1 & S2 & S3 & N & P). destruct LIES as (pre & post & -> & ->). rewrite box_fields. unfold head_fields. cbn [List.concat].
    unfold tfra_track. rewrite <- !app_assoc. rewrite (app_assoc pre), (app_assoc (pre ++ _)), (app_assoc ((pre ++ _) ++ _)).
    apply u32_at_ok; [|exact TR]. rewrite !blen_app, !blen_be32. change (blen (bstr "tfra")) with 4. lia.
  Qed.
  Lemma point_len : forall p, blen (point_bytes a p) = row_length (T a).
  Proof.
    intros p. destruct OK as (V & F & TR & R & S1 & S2 & S3 & N & P). unfold point_bytes, sized, row_length, intro, T, time_bytes. cbn [a_version a_traf a_trun a_sample].
    rewrite !blen_app, !blen_be_bytes, !Z2Nat.id by lia. destruct (ac_version a =? 0); lia.
  Qed.
  Lemma intro_ok : intro (T a) = Z.of_nat (time_bytes a).
  Proof. unfold intro, T, time_bytes. cbn [a_version]. destruct (ac_version a =? 0); reflexivity. Qed.

  (** ** Entries *)
  Definition low (size x : Z) : Z := if size =? 2 then x mod 65536 else x.
  Lemma part_ok : forall size x rest, 0 <= size -> fits (Z.to_nat (size + 1)) x -> part size (sized size x ++ rest) = Ok (low size x, rest).
  Proof.
    intros size x rest S X. unfold part, sized. rewrite send_f by (rewrite ?blen_be_bytes, ?Z2Nat.id by lia; lia). cbn [bind].
    rewrite be_val_be_bytes by exact X. reflexivity.
  Qed.
  Lemma row_slice : forall i p, nth_error (ac_points a) i = Some p ->
    bslice (o + 24 + row_length (T a) * Z.of_nat i) (o + 24 + row_length (T a) * Z.of_nat i + row_length (T a)) data = point_bytes a p.
  Proof.
    intros i p H. destruct LIES as (pre & post & -> & ->). rewrite box_fields. apply nth_error_split in H. destruct H as (l1 & l2 & E & L).
    rewrite E, map_app, concat_app. cbn [map List.concat]. rewrite <- !app_assoc. rewrite (app_assoc pre), (app_assoc (pre ++ _)).
    assert (LL : blen (List.concat (map (point_bytes a) l1)) = row_length (T a) * Z.of_nat i).
    { rewrite (rows_len _ _ (row_length (T a))) by (intros; apply point_len). unfold BoxesModel.llen. rewrite L. reflexivity. }
    apply slice_at; rewrite !blen_app, head_len, LL, ?point_len; lia.
  Qed.
  Lemma entry_any : forall i p, nth_error (ac_points a) i = Some p ->
    entry data o (Z.of_nat i) = Ok (p_time p, p_moof p, low (ac_traf a) (p_traf p), low (ac_trun a) (p_trun p), low (ac_sample a) (p_sample p)).
  Proof.
    intros i p H. unfold entry. rewrite table_at_ok. cbn [bind]. rewrite (row_slice i p H).
    destruct OK as (V & F & TR & R & S1 & S2 & S3 & N & P). rewrite Forall_forall in P. destruct (P p (nth_error_In _ _ H)) as (P1 & P2 & P3 & P4 & P5).
    unfold point_bytes. rewrite intro_ok. assert (TB : 0 < Z.of_nat (time_bytes a)) by (unfold time_bytes; destruct (ac_version a =? 0); lia).
    rewrite send_f by (rewrite ?blen_be_bytes; lia). cbn [bind]. rewrite send_f by (rewrite ?blen_be_bytes; lia). cbn [bind].
    cbn [T a_traf a_trun a_sample]. rewrite part_ok by (try assumption; lia). cbn [bind]. rewrite part_ok by (try assumption; lia). cbn [bind].
    rewrite <- (app_nil_r (sized (ac_sample a) (p_sample p))). rewrite part_ok by (try assumption; lia). cbn [bind].
    rewrite !be_val_be_bytes by assumption. reflexivity.
  Qed.
  Lemma end_any : forall rest p q, ac_points a = rest ++ [p; q] -> end_time data o = Ok (p_time q + (p_time q - p_time p)).
  Proof.
    intros rest p q E. unfold end_time. rewrite table_at_ok. cbn [bind T a_count].
    assert (L : Z.of_nat (List.length (ac_points a)) = Z.of_nat (List.length rest) + 2) by (rewrite E, app_length; cbn [List.length]; lia).
    destruct (Z.eqb_spec (Z.of_nat (List.length (ac_points a))) 0) as [X|_]; [lia|].
    replace (Z.of_nat (List.length (ac_points a)) - 1) with (Z.of_nat (S (List.length rest))) by lia.
    replace (Z.of_nat (List.length (ac_points a)) - 2) with (Z.of_nat (List.length rest)) by lia.
    rewrite (entry_any (S (List.length rest)) q) by (rewrite E, nth_error_app2 by lia; replace (S (List.length rest) - List.length rest)%nat with 1%nat by lia; reflexivity).
    cbn [bind]. rewrite (entry_any (List.length rest) p) by (rewrite E, nth_error_app2 by lia; replace (List.length rest - List.length rest)%nat with 0%nat by lia; reflexivity).
    reflexivity.
  Qed.

  (** ** Fragments *)
  Definition frs (prev : option Z) (l : list point) : list point :=
    map snd (filter begins_fragment (combine (prev :: map (fun p => Some (p_moof p)) l) l)).
  Lemma frs_cons : forall prev p l, frs prev (p :: l) = (if begins_fragment (prev, p) then [p] else []) ++ frs (Some (p_moof p)) l.
  Proof. intros. unfold frs. cbn [map combine filter]. destruct (begins_fragment (prev, p)); reflexivity. Qed.
  Lemma read_ok : forall x n y pre post, n = Z.of_nat (time_bytes a) -> fits (time_bytes a) x -> y = blen pre ->
    (if n =? 4 then u32_at (pre ++ be_bytes (time_bytes a) x ++ post) y else u64_at (pre ++ be_bytes (time_bytes a) x ++ post) y) = Ok x.
  Proof.
    intros x n y pre post -> X ->. unfold fits, time_bytes in *. destruct (ac_version a =? 0); cbn [Z.of_nat Z.eqb Pos.of_succ_nat Pos.succ].
    - unfold u32_at. rewrite slice_at by reflexivity. rewrite u32_ok by reflexivity. rewrite be_val_be_bytes by exact X. reflexivity.
    - unfold u64_at. rewrite slice_at by reflexivity. rewrite u64_ok by reflexivity. rewrite be_val_be_bytes by exact X. reflexivity.
  Qed.
  Lemma gather_ok : forall l pre post p ts os, p = blen pre -> Forall (point_ok a) l ->
    gather (List.length l) (intro (T a)) (row_length (T a)) (pre ++ List.concat (map (point_bytes a) l) ++ post) p ts os =
    Ok (rev ts ++ map p_time (frs (hd_error os) l), rev os ++ map p_moof (frs (hd_error os) l)).
  Proof.
    induction l as [|q l IH]; intros pre post p ts os P O.
    - cbn [List.length gather map frs combine filter]. rewrite !app_nil_r. reflexivity.
    - inversion O as [|? ? O1 O2]; subst. cbn [List.length gather map List.concat]. rewrite frs_cons.
      destruct O1 as (P1 & P2 & _). rewrite <- app_assoc.
      assert (R1 : (if intro (T a) =? 4 then u32_at (pre ++ point_bytes a q ++ List.concat (map (point_bytes a) l) ++ post) (blen pre)
                    else u64_at (pre ++ point_bytes a q ++ List.concat (map (point_bytes a) l) ++ post) (blen pre)) = Ok (p_time q)).
      { unfold point_bytes at 1 3. rewrite <- !app_assoc. apply read_ok; [apply intro_ok|exact P1|reflexivity]. }
      assert (R2 : (if intro (T a) =? 4 then u32_at (pre ++ point_bytes a q ++ List.concat (map (point_bytes a) l) ++ post) (blen pre + intro (T a))
                    else u64_at (pre ++ point_bytes a q ++ List.concat (map (point_bytes a) l) ++ post) (blen pre + intro (T a))) = Ok (p_moof q)).
      { unfold point_bytes at 1 3. rewrite <- !app_assoc. rewrite (app_assoc pre). apply read_ok; [apply intro_ok|exact P2|].
        rewrite blen_app, blen_be_bytes, intro_ok. reflexivity. }
      rewrite R1. cbn [bind]. rewrite R2. cbn [bind]. rewrite (app_assoc pre).
      assert (NX : blen pre + row_length (T a) = blen (pre ++ point_bytes a q)) by (rewrite blen_app, point_len; lia).
      destruct os as [|m os]; cbn [hd_error].
      + rewrite IH by assumption. cbn [begins_fragment fst hd_error app map rev]. rewrite <- !app_assoc. reflexivity.
      + cbn [begins_fragment fst snd]. destruct (Z.eqb_spec m (p_moof q)) as [E|E]; cbn [negb].
        * rewrite IH by assumption. cbn [hd_error app]. rewrite E. reflexivity.
        * rewrite IH by assumption. cbn [hd_error app map]. cbn [rev]. rewrite <- !app_assoc. reflexivity.
  Qed.
  Definition F : list point := fragments (ac_points a).
  Lemma random_ok : random_access data o = Ok (map p_time F, map p_moof F).
  Proof.
    unfold random_access. rewrite table_at_ok. cbn [bind]. change (a_count (T a)) with (Z.of_nat (List.length (ac_points a))). rewrite Nat2Z.id.
    pose proof LIES as (pre & post & D & P0). rewrite D at 1. rewrite box_fields. rewrite <- !app_assoc. rewrite (app_assoc pre).
    rewrite gather_ok; [reflexivity| |apply OK]. rewrite blen_app, head_len, P0. lia.
  Qed.
  Lemma item_ok : forall (f : point -> Z) k p, nth_error F k = Some p -> item (map f F) (Z.of_nat k) = Ok (f p).
  Proof.
    intros f k p H. unfold item. replace (Z.of_nat k <? 0) with false by lia. replace (Z.of_nat k <? 0) with false by lia.
    rewrite Nat2Z.id, (map_nth_error _ _ _ H). reflexivity.
  Qed.
  Lemma fragment_ok : forall k p, nth_error F k = Some p ->
    time_for_fragment data o (Z.of_nat k + 1) = Ok (Some (p_time p)) /\
    moof_offset_for_fragment data o (Z.of_nat k + 1) =
      Ok (Some (p_moof p, match nth_error F (S k) with Some q => p_moof q - p_moof p | None => 0 end)).
  Proof.
    intros k p H. assert (L : (k < List.length F)%nat) by (apply nth_error_Some; congruence).
    unfold time_for_fragment, moof_offset_for_fragment. rewrite random_ok. cbn [bind]. rewrite !map_length.
    replace (Z.of_nat (List.length F) <? Z.of_nat k + 1) with false by lia. replace (Z.of_nat k + 1 - 1) with (Z.of_nat k) by lia.
    rewrite !(item_ok _ k p H). cbn [bind]. split; [reflexivity|].
    destruct (nth_error F (S k)) as [q|] eqn:Q.
    - assert (L2 : (S k < List.length F)%nat) by (apply nth_error_Some; congruence). replace (Z.of_nat k + 1 <? Z.of_nat (List.length F)) with true by lia.
      replace (Z.of_nat k + 1) with (Z.of_nat (S k)) by lia. rewrite (item_ok _ (S k) q Q). reflexivity.
    - apply nth_error_None in Q. replace (Z.of_nat k + 1 <? Z.of_nat (List.length F)) with false by lia. reflexivity.
  Qed.
  Lemma no_fragment : forall k, Z.of_nat (List.length F) < k -> time_for_fragment data o k = Ok None /\ moof_offset_for_fragment data o k = Ok None.
  Proof.
    intros k H. unfold time_for_fragment, moof_offset_for_fragment. rewrite random_ok. cbn [bind]. rewrite !map_length.
    replace (Z.of_nat (List.length F) <? k) with true by lia. split; reflexivity.
  Qed.
  Lemma count_ok : fragment_count data o = Ok (Z.of_nat (List.length F)).
  Proof. unfold fragment_count. rewrite random_ok. cbn [bind]. rewrite map_length. reflexivity. Qed.

  (** ** Offsets *)
  Lemma index_first : forall l1 p l2, Forall (fun q => p_moof q <> p_moof p) l1 -> index_of (map p_moof (l1 ++ p :: l2)) (p_moof p) = Ok (List.length l1).
  Proof.
    induction l1 as [|q l1 IH]; intros p l2 H; cbn [app map index_of List.length].
    - rewrite Z.eqb_refl. reflexivity.
    - inversion H; subst. destruct (Z.eqb_spec (p_moof q) (p_moof p)); [contradiction|]. rewrite IH by assumption. reflexivity.
  Qed.
  Lemma frs_In : forall l prev q, In q (frs prev l) -> In q l.
  Proof.
    induction l as [|p l IH]; intros prev q H; [exact H|]. rewrite frs_cons in H. apply in_app_iff in H. destruct H as [H|H].
    - destruct (begins_fragment (prev, p)); [|destruct H]. destruct H as [H|[]]. left. exact H.
    - right. eapply IH. exact H.
  Qed.
  Definition last_moof (prev : option Z) (l : list point) : option Z := match rev l with [] => prev | p :: _ => Some (p_moof p) end.
  Lemma last_moof_cons : forall prev p l, last_moof prev (p :: l) = last_moof (Some (p_moof p)) l.
  Proof. intros. unfold last_moof. cbn [rev]. destruct (rev l); reflexivity. Qed.
  Lemma frs_app : forall l1 l2 prev, frs prev (l1 ++ l2) = frs prev l1 ++ frs (last_moof prev l1) l2.
  Proof.
    induction l1 as [|p l1 IH]; intros l2 prev; [reflexivity|]. rewrite <- app_comm_cons, !frs_cons, IH, last_moof_cons, app_assoc. reflexivity.
  Qed.
  Lemma first_with : forall before p after, ac_points a = before ++ p :: after -> Forall (fun q => p_moof q <> p_moof p) before ->
    exists l1 l2, F = l1 ++ p :: l2 /\ Forall (fun q => p_moof q <> p_moof p) l1.
  Proof.
    intros before p after E H. unfold F. rewrite E. change (fragments (before ++ p :: after)) with (frs None (before ++ p :: after)). rewrite frs_app, frs_cons.
    exists (frs None before), (frs (Some (p_moof p)) after). split.
    - replace (begins_fragment (last_moof None before, p)) with true; [reflexivity|]. symmetry. unfold begins_fragment, last_moof. cbn [fst snd].
      destruct (rev before) as [|q r] eqn:R; [reflexivity|]. cbn [fst snd]. rewrite Forall_forall in H.
      assert (In q before) by (apply in_rev; rewrite R; left; reflexivity). destruct (Z.eqb_spec (p_moof q) (p_moof p)); [exfalso; eapply H; eauto|reflexivity].
    - rewrite Forall_forall in *. intros q Hq. apply H. eapply frs_In. exact Hq.
  Qed.
  Lemma offset_time : forall before p after, ac_points a = before ++ p :: after -> Forall (fun q => p_moof q <> p_moof p) before ->
    time_for_moof_offset data o (p_moof p) = Ok (p_time p).
  Proof.
    intros before p after E H. destruct (first_with before p after E H) as (l1 & l2 & EF & NE). unfold time_for_moof_offset. rewrite random_ok. cbn [bind].
    assert (IX : index_of (map p_moof F) (p_moof p) = Ok (List.length l1)) by (rewrite EF; apply index_first; exact NE). rewrite IX. cbn [bind]. apply item_ok. rewrite EF, nth_error_app2 by lia. rewrite Nat.sub_diag. reflexivity.
  Qed.

  (** ** Seeking *)
  Lemma div2_between : forall lo hi, (lo < hi)%nat -> (lo <= Nat.div2 (lo + hi) < hi)%nat.
  Proof. intros lo hi H. rewrite Nat.div2_div. split; [apply Nat.div_le_lower_bound; lia|apply Nat.div_lt_upper_bound; lia]. Qed.
  Lemma bisect_ok : forall l x, (forall i j, (i < j < List.length l)%nat -> nth i l 0 <= nth j l 0) ->
    forall fuel lo hi, (lo <= hi <= List.length l)%nat -> (hi - lo <= fuel)%nat ->
    (forall i, (i < lo)%nat -> nth i l 0 < x) -> (forall i, (hi <= i < List.length l)%nat -> x <= nth i l 0) ->
    let k := bisect_left fuel l x lo hi in (k <= List.length l)%nat /\ (forall i, (i < k)%nat -> nth i l 0 < x) /\ (forall i, (k <= i < List.length l)%nat -> x <= nth i l 0).
  Proof.
    intros l x S. induction fuel as [|fuel IH]; intros lo hi B D A1 A2; cbn [bisect_left].
    - assert (lo = hi) by lia. subst. repeat split; [lia|exact A1|exact A2].
    - destruct (Nat.ltb_spec lo hi) as [C|C].
      + pose proof (div2_between lo hi C) as M. set (mid := Nat.div2 (lo + hi)) in *. destruct (Z.ltb_spec (nth mid l 0) x) as [G|G].
        * apply IH; [lia|lia| |exact A2]. intros i Hi. destruct (Nat.eq_dec i mid) as [->|]; [exact G|]. pose proof (S i mid ltac:(lia)). lia.
        * apply IH; [lia|lia|exact A1|]. intros i Hi. destruct (Nat.eq_dec i mid) as [->|]; [exact G|]. pose proof (S mid i ltac:(lia)). lia.
      + assert (lo = hi) by lia. subst. repeat split; [lia|exact A1|exact A2].
  Qed.
  (** Order is inherited by the points that begin fragments. *)
  Definition rising (l : list point) : Prop := forall x p y q z, l = x ++ p :: y ++ q :: z -> p_time p < p_time q.
  Lemma ordered_rising : forall l, ordered l -> rising l.
  Proof.
    intros l O x p y q z E. apply (O (List.length x) (List.length x + S (List.length y))%nat); [lia| |]; subst.
    - rewrite nth_error_app2 by lia. rewrite Nat.sub_diag. reflexivity.
    - rewrite nth_error_app2 by lia. replace (_ - _)%nat with (S (List.length y)) by lia. cbn [nth_error]. rewrite nth_error_app2 by lia. rewrite Nat.sub_diag. reflexivity.
  Qed.
  Lemma rising_tail : forall p l, rising (p :: l) -> rising l /\ Forall (fun q => p_time p < p_time q) l.
  Proof.
    intros p l R. split.
    - intros x u y v z E. apply (R (p :: x) u y v z). rewrite E. reflexivity.
    - rewrite Forall_forall. intros q Hq. apply in_split in Hq. destruct Hq as (y & z & E). apply (R [] p y q z). rewrite E. reflexivity.
  Qed.
  Lemma rising_cons : forall p l, rising l -> Forall (fun q => p_time p < p_time q) l -> rising (p :: l).
  Proof.
    intros p l R H x u y v z E. destruct x as [|w x]; inversion E; subst.
    - rewrite Forall_forall in H. apply H. apply in_app_iff. right. left. reflexivity.
    - eapply R. reflexivity.
  Qed.
  Lemma frs_rising : forall l prev, rising l -> rising (frs prev l).
  Proof.
    induction l as [|p l IH]; intros prev R; [intros x u y v z E; destruct x; discriminate|].
    destruct (rising_tail _ _ R) as [R1 R2]. rewrite frs_cons. destruct (begins_fragment (prev, p)); cbn [app]; [|apply IH; exact R1].
    apply rising_cons; [apply IH; exact R1|]. rewrite Forall_forall in *. intros q Hq. apply R2. eapply frs_In. exact Hq.
  Qed.
  Lemma rising_nth : forall l i j, rising l -> (i < j < List.length (map p_time l))%nat -> nth i (map p_time l) 0 < nth j (map p_time l) 0.
  Proof.
    intros l i j R. revert i j. induction l as [|p l IH]; intros i j H; [cbn in H; lia|]. destruct (rising_tail _ _ R) as [R1 R2]. cbn [map List.length] in *.
    destruct j as [|j]; [lia|]. destruct i as [|i]; cbn [nth].
    - rewrite Forall_forall in R2. assert (I : In (nth j (map p_time l) 0) (map p_time l)) by (apply nth_In; lia). apply in_map_iff in I. destruct I as (q & <- & Q). apply R2. exact Q.
    - apply IH; [exact R1|lia].
  Qed.
  Lemma bisect_at : forall l1 l2 x, rising (l1 ++ l2) -> Forall (fun p => p_time p < x) l1 -> Forall (fun p => x <= p_time p) l2 ->
    bisect_left (List.length (map p_time (l1 ++ l2))) (map p_time (l1 ++ l2)) x 0 (List.length (map p_time (l1 ++ l2))) = List.length l1.
  Proof.
    intros l1 l2 x R A B. set (l := map p_time (l1 ++ l2)). assert (LL : List.length l = (List.length l1 + List.length l2)%nat) by (unfold l; rewrite map_length, app_length; reflexivity).
    destruct (bisect_ok l x) with (fuel := List.length l) (lo := 0%nat) (hi := List.length l) as (K1 & K2 & K3); try lia.
    - intros i j H. pose proof (rising_nth (l1 ++ l2) i j R H). fold l in H0. lia.
    - set (k := bisect_left _ _ _ _ _) in *. destruct (Nat.lt_trichotomy k (List.length l1)) as [C|[C|C]]; [|exact C|]; exfalso.
      + specialize (K3 k ltac:(lia)). unfold l in K3. rewrite map_app, app_nth1 in K3 by (rewrite map_length; lia).
        assert (I : In (nth k (map p_time l1) 0) (map p_time l1)) by (apply nth_In; rewrite map_length; lia). apply in_map_iff in I. destruct I as (q & Q & I).
        rewrite Forall_forall in A. specialize (A q I). lia.
      + specialize (K2 (List.length l1) C). unfold l in K2. rewrite map_app, app_nth2 in K2 by (rewrite map_length; lia). rewrite map_length, Nat.sub_diag in K2.
        destruct l2 as [|q l2]; [cbn [List.length] in LL; lia|]. cbn [map nth] in K2. inversion B; subst. lia.
  Qed.
  Lemma last_frs : forall before p, exists l q, frs None (before ++ [p]) = l ++ [q] /\ p_moof q = p_moof p.
  Proof.
    intros before. destruct before as [|z before _] using rev_ind.
    - intros p. exists [], p. split; reflexivity.
    - revert z. induction before as [|y before IH] using rev_ind; intros z p.
      + cbn [app]. rewrite !frs_cons. cbn [begins_fragment fst snd app]. destruct (Z.eqb_spec (p_moof z) (p_moof p)) as [E|E]; cbn [negb app].
        * exists [], z. split; [reflexivity|exact E].
        * exists [z], p. split; reflexivity.
      + rewrite frs_app. destruct (IH y z) as (l & q & E & M). rewrite E. unfold last_moof. rewrite rev_app_distr. cbn [rev app]. rewrite frs_cons.
        cbn [begins_fragment fst snd]. destruct (Z.eqb_spec (p_moof z) (p_moof p)) as [X|X]; cbn [negb app].
        * exists l, q. split; [rewrite app_nil_r; reflexivity|congruence].
        * exists (l ++ [q]), p. split; reflexivity.
  Qed.
  Lemma first_fragment : forall p l, ac_points a = p :: l -> exists r, F = p :: r.
  Proof. intros p l E. unfold F. rewrite E. change (fragments (p :: l)) with (frs None (p :: l)). rewrite frs_cons. eexists. reflexivity. Qed.
  Lemma seek_before : forall first l t, ac_points a = first :: l -> ordered (ac_points a) -> t <= p_time first -> moof_offset_for_time data o t = Ok (p_moof first).
  Proof.
    intros first l t E O B. destruct (first_fragment first l E) as (r & EF). unfold moof_offset_for_time. rewrite random_ok. cbn [bind].
    assert (R : rising F) by (apply frs_rising; apply ordered_rising; exact O).
    assert (LE : Forall (fun u => t <= p_time u) F).
    { rewrite EF in *. destruct (rising_tail _ _ R) as [_ R2]. constructor; [exact B|]. eapply Forall_impl; [|exact R2]. intros q Q. cbv beta in Q. lia. }
    pose proof (bisect_at [] F t R (Forall_nil _) LE) as BI. cbn [app List.length] in BI. rewrite BI.
    change (Z.max (Z.of_nat 0 - 1) 0) with (Z.of_nat 0). apply item_ok. rewrite EF. reflexivity.
  Qed.
  Lemma seek_ok : forall t p, ordered (ac_points a) -> last_until (ac_points a) t p ->
    (forall q, In q F -> p_time q = t -> hd_error (ac_points a) = Some q) -> moof_offset_for_time data o t = Ok (p_moof p).
  Proof.
    intros t p O (before & after & E & B & A) N.
    assert (R : rising F) by (apply frs_rising; apply ordered_rising; exact O).
    assert (EF : exists l q rest, F = (l ++ [q]) ++ rest /\ p_moof q = p_moof p /\ (forall u, In u (l ++ [q]) -> In u (before ++ [p])) /\ Forall (fun u => t < p_time u) rest).
    { unfold F. rewrite E. replace (before ++ p :: after) with ((before ++ [p]) ++ after) by (rewrite <- app_assoc; reflexivity).
      change (fragments ((before ++ [p]) ++ after)) with (frs None ((before ++ [p]) ++ after)). rewrite frs_app. destruct (last_frs before p) as (l & q & EQ & M).
      exists l, q. eexists. split; [rewrite EQ; reflexivity|]. split; [exact M|]. split; [intros u; rewrite <- EQ; apply frs_In|].
      rewrite Forall_forall in *. intros u Hu. apply A. eapply frs_In. exact Hu. }
    destruct EF as (l & q & rest & EF & M & SUB & LATE).
    assert (UP : Forall (fun u => p_time u <= t) (l ++ [q])).
    { rewrite Forall_forall. intros u Hu. apply SUB in Hu. apply in_app_iff in Hu. destruct Hu as [Hu|[<-|[]]]; [|exact B]. apply in_split in Hu. destruct Hu as (x & y & ->).
      assert (p_time u < p_time p); [|lia]. apply (ordered_rising _ O x u y p after). rewrite E, <- app_assoc. reflexivity. }
    destruct (Z.eq_dec (p_time q) t) as [Q|Q].
    - (* the first point of all is at the time *)
      assert (H : hd_error (ac_points a) = Some q) by (apply N; [rewrite EF, in_app_iff; left; apply in_app_iff; right; left; reflexivity|exact Q]).
      destruct (ac_points a) as [|f r] eqn:EP; [discriminate|]. inversion H; subst f. rewrite <- M. eapply seek_before; [exact EP|rewrite EP; exact O|lia].
    - unfold moof_offset_for_time. rewrite random_ok. cbn [bind]. 
      assert (BI : bisect_left (List.length (map p_time F)) (map p_time F) t 0 (List.length (map p_time F)) = List.length (l ++ [q])).
      { rewrite EF. apply bisect_at.
        - rewrite <- EF. exact R.
        - rewrite Forall_forall in *. intros u Hu. specialize (UP u Hu) as UU. destruct (Z.eq_dec (p_time u) t) as [X|]; [exfalso|lia].
          apply in_app_iff in Hu. destruct Hu as [Hu|[<-|[]]]; [|congruence]. apply in_split in Hu. destruct Hu as (x & y & ->).
          assert (p_time u < p_time q) by (apply (R x u y q rest); rewrite EF, <- !app_assoc; reflexivity).
          assert (p_time q <= t) by (apply UP; apply in_app_iff; right; left; reflexivity). lia.
        - eapply Forall_impl; [|exact LATE]. intros u Hu. cbv beta in Hu. lia. }
      rewrite BI, app_length. cbn [List.length]. replace (Z.max (Z.of_nat (List.length l + 1) - 1) 0) with (Z.of_nat (List.length l)) by lia.
      rewrite <- M. apply item_ok. rewrite EF, <- app_assoc, nth_error_app2 by lia. rewrite Nat.sub_diag. reflexivity.
  Qed.
End Table.

Lemma mfro_ok : forall data o v f n, 0 <= v < 256 -> 0 <= f < 16777216 -> 0 <= n < 4294967296 -> lies data o (tail_box v f n) -> mfro_at data o 16 = Ok n.
Proof.
  intros data o v f n V F N (pre & post & -> & ->). unfold tail_box, mfro_at. rewrite <- !app_assoc. rewrite (app_assoc pre), (app_assoc (pre ++ _)).
  set (h := (pre ++ _) ++ _). assert (LH : blen h = blen pre + 8) by (unfold h; rewrite !blen_app, blen_be32; change (blen (bstr "mfro")) with 4; lia).
  rewrite full_at_ok by (try assumption; lia). cbn [bind]. rewrite (app_assoc h).
  rewrite slice_at by (rewrite blen_app, ?blen_be32, LH; lia). rewrite <- (app_nil_r (be32 n)). rewrite send_f by (rewrite ?blen_be32; lia). cbn [bind].
  rewrite be32_val by exact N. reflexivity.
Qed.
