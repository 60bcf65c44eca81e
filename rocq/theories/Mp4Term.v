(** Termination of the box filter. *)
From Verif Require Import Base BaseProofs BytesModel BytesProofs Mp4Model BoxSpec EmsgModel TtmlModel TimeModel MediaModel MediaSpec.
From Coq Require Import ZifyBool ZifyNat.
Open Scope Z_scope.

Definition stops {A} (r : result A) : Prop := r <> Err "diverges".
Lemma bind_stops : forall A B (m : result A) (f : A -> result B),
  stops m -> (forall a, m = Ok a -> stops (f a)) -> stops (bind m f).
Proof. intros A B m f H K. destruct m as [a|e]; cbn [bind]; auto. intros E. apply H. congruence. Qed.
Lemma ok_stops : forall A (a : A), stops (Ok a).
Proof. intros A a E. discriminate. Qed.
Lemma u32_stops : forall b, stops (str_to_uint32 b).
Proof. intros b. unfold str_to_uint32. destruct (blen b =? 4); discriminate. Qed.

(** [check_box] of the header at the start of [d] *)
Lemma check_short : forall d, blen d < 4 -> check_box (btake 8 d) = Err "struct.error".
Proof.
  intros d H. unfold check_box. rewrite u32_err; [reflexivity|].
  assert (X := blen_nonneg d). rewrite !blen_btake by lia. lia.
Qed.
Lemma take_take : forall a b d, a <= b -> btake a (btake b d) = btake a d.
Proof. intros. unfold btake. rewrite firstn_firstn. f_equal. lia. Qed.
Lemma check_ok : forall d, 4 <= blen d -> check_box (btake 8 d) = Ok (be_val (btake 4 d), bslice 4 8 d).
Proof.
  intros d H. unfold check_box. rewrite take_take by lia. rewrite u32_ok by (rewrite blen_btake; lia).
  cbn [bind]. f_equal. f_equal. unfold bslice. change (8 - 4) with 4.
  unfold btake, bdrop. rewrite skipn_firstn_comm. rewrite firstn_firstn. reflexivity.
Qed.
Lemma slice_take : forall pos n d, bslice pos (pos + n) d = btake n (bdrop pos d).
Proof. intros. unfold bslice. f_equal. lia. Qed.

Lemma drop_drop : forall a b d, 0 <= a -> 0 <= b -> bdrop a (bdrop b d) = bdrop (b + a) d.
Proof.
  intros a b d A B. unfold bdrop. replace (Z.to_nat (b + a)) with (Z.to_nat b + Z.to_nat a)%nat by lia.
  revert d. induction (Z.to_nat b) as [|k IH]; intros d; auto.
  destruct d; cbn [skipn Nat.add]; auto. apply skipn_nil.
Qed.

Section Term.
  Context {S : Type}.
  Variable cls : fclass S.
  Hypothesis Hm : forall t m d st, fc_method cls t = Some m -> stops (m d st).
  Hypothesis Hf : forall o b st, stops (fc_finalize cls o b st).

  Lemma leaf_stops : forall t d st, stops (process_leaf cls t d st).
  Proof.
    intros. unfold process_leaf. destruct (utf8_ok t); [|discriminate].
    destruct (fc_method cls t) eqn:E; [eapply Hm; eauto|discriminate].
  Qed.
  Definition agree (n : nat) : Prop := forall t d fp st r1 r2,
    (List.length d <= n)%nat -> (In t (fc_composite cls) -> scan (fc_composite cls) (bdrop 8 d)) ->
    (n + 1 <= r1)%nat -> (n + 1 <= r2)%nat -> (2 <= r1)%nat -> (2 <= r2)%nat ->
    filter_box cls r1 t d fp st = filter_box cls r2 t d fp st /\ stops (filter_box cls r1 t d fp st).

  Lemma loop_agree : forall n data, agree n ->
    forall d, scan (fc_composite cls) d -> forall r1 r2 f1 f2 fp pos output st,
    d = bdrop pos data -> 0 <= pos -> (List.length d <= n)%nat ->
    (n + 1 <= r1)%nat -> (n + 1 <= r2)%nat -> (2 <= r1)%nat -> (2 <= r2)%nat -> (List.length d + 1 <= f1)%nat -> (List.length d + 1 <= f2)%nat ->
    child_loop (filter_box cls r1) f1 data fp pos output st = child_loop (filter_box cls r2) f2 data fp pos output st /\
    stops (child_loop (filter_box cls r1) f1 data fp pos output st).
  Proof.
    intros n data AG d SC. induction SC as [d SH|d k L4 EK PK SC1 _ SC2 IH];
      intros r1 r2 f1 f2 fp pos output st ED PP LN R1 R2 Q1 Q2 F1 F2;
      (destruct f1 as [|f1]; [lia|]); (destruct f2 as [|f2]; [lia|]); cbn [child_loop].
    - destruct (Z.ltb_spec pos (blen data)) as [LT|GE]; [|split; [reflexivity|discriminate]].
      rewrite slice_take, <- ED, check_short by auto. split; [reflexivity|discriminate].
    - destruct (Z.ltb_spec pos (blen data)) as [LT|GE]; [|split; [reflexivity|discriminate]].
      rewrite slice_take, <- ED, check_ok by auto. cbn [bind]. rewrite <- EK.
      rewrite slice_take, <- ED.
      assert (LB : (List.length (btake k d) <= n)%nat).
      { unfold btake. rewrite firstn_length. lia. }
      destruct (AG (bslice 4 8 d) (btake k d) (fp + pos) st r1 r2 LB SC1 R1 R2 Q1 Q2) as [EQ ST].
      rewrite <- EQ. destruct (filter_box cls r1 (bslice 4 8 d) (btake k d) (fp + pos) st) as [[o st1]|e].
      2:{ cbn [bind]. split; auto. }
      cbn [bind]. assert (L2 : (List.length (bdrop k d) < List.length d)%nat).
      { unfold bdrop, blen in *. rewrite skipn_length. lia. }
      apply IH; try lia. rewrite ED. apply drop_drop; lia.
  Qed.
  Lemma agree_all : forall n, agree n.
  Proof.
    induction n as [n IH] using (well_founded_induction lt_wf).
    intros t d fp st r1 r2 LD SC R1 R2 Q1 Q2.
    destruct r1 as [|r1]; [lia|]. destruct r2 as [|r2]; [lia|]. cbn [filter_box].
    destruct (bytes_in t (fc_composite cls)) eqn:B.
    2:{ split; [reflexivity|]. apply leaf_stops. }
    apply (proj1 (bytes_in_iff _ _)) in B. specialize (SC B).
    assert (K : child_loop (filter_box cls r1) r1 d fp 8 (btake 8 d) (fc_note cls t fp st) =
                child_loop (filter_box cls r2) r2 d fp 8 (btake 8 d) (fc_note cls t fp st) /\
                stops (child_loop (filter_box cls r1) r1 d fp 8 (btake 8 d) (fc_note cls t fp st))).
    { destruct (Z.ltb_spec 8 (blen d)) as [LT|GE].
      - assert (LN : (n - 8 < n)%nat) by (unfold blen in LT; lia).
        apply (loop_agree (n - 8)%nat d (IH _ LN) (bdrop 8 d) SC); auto; try lia;
          try (unfold blen, bdrop in *; rewrite ?skipn_length; lia).
      - destruct r1 as [|r1]; [lia|]. destruct r2 as [|r2]; [lia|]. cbn [child_loop].
        destruct (Z.ltb_spec 8 (blen d)); [lia|]. split; [reflexivity|discriminate]. }
    destruct K as [EQ ST]. rewrite <- EQ. split; [reflexivity|].
    apply bind_stops; auto. intros [o s] _. destruct (negb (blen o =? blen d)); [|discriminate].
    apply bind_stops; [|discriminate]. unfold uint32_to_str. destruct (_ && _); discriminate.
  Qed.

  Lemma top_agree : forall data d, scan_top (fc_top cls) (fc_composite cls) d ->
    forall f1 f2 pos output boxes st, d = bdrop pos data -> 0 <= pos ->
    (List.length d + 2 <= f1)%nat -> (List.length d + 2 <= f2)%nat ->
    top_loop cls f1 data pos output boxes st = top_loop cls f2 data pos output boxes st /\
    stops (top_loop cls f1 data pos output boxes st).
  Proof.
    intros data d SC. induction SC as [d SH|d k L4 EK PK SC1 SC2 IH];
      intros f1 f2 pos output boxes st ED PP F1 F2;
      (destruct f1 as [|f1]; [lia|]); (destruct f2 as [|f2]; [lia|]); cbn [top_loop].
    - destruct (Z.ltb_spec pos (blen data)) as [LT|GE]; [|split; [reflexivity|discriminate]].
      rewrite slice_take, <- ED, check_short by auto. split; [reflexivity|discriminate].
    - destruct (Z.ltb_spec pos (blen data)) as [LT|GE]; [|split; [reflexivity|discriminate]].
      rewrite slice_take, <- ED, check_ok by auto. cbn [bind]. rewrite <- EK.
      rewrite slice_take, <- ED.
      assert (L2 : (List.length (bdrop k d) < List.length d)%nat).
      { unfold bdrop, blen in *. rewrite skipn_length. lia. }
      assert (EN : bdrop k d = bdrop (pos + k) data).
      { rewrite ED. apply drop_drop; lia. }
      destruct (bytes_in (bslice 4 8 d) (fc_top cls)) eqn:B.
      + apply (proj1 (bytes_in_iff _ _)) in B.
        destruct (agree_all (List.length d) (bslice 4 8 d) (btake k d) (blen output) st f1 f2) as [EQ ST].
        * unfold btake. rewrite firstn_length. lia.
        * auto.
        * lia.
        * lia.
        * unfold blen in L4. lia.
        * unfold blen in L4. lia.
        * rewrite <- EQ. destruct (filter_box cls f1 (bslice 4 8 d) (btake k d) (blen output) st) as [[o st1]|e].
          2:{ cbn [bind]. split; [reflexivity|]. intros X. apply ST. congruence. }
          cbn [bind]. apply IH; auto; lia.
      + cbn [bind]. apply IH; auto; lia.
  Qed.

  Lemma mp4_filter_stops : forall data st fuel, scan_top (fc_top cls) (fc_composite cls) data ->
    (enough data <= fuel)%nat ->
    mp4_filter cls fuel data st = mp4_filter cls (enough data) data st /\
    stops (mp4_filter cls (enough data) data st).
  Proof.
    intros data st fuel SC F. unfold mp4_filter, enough in *.
    destruct (top_agree data data SC (Datatypes.S (Datatypes.S (List.length data))) fuel 0 [] [] st) as [EQ ST]; try lia; auto.
    rewrite <- EQ. split; auto. apply bind_stops; auto. intros [[o b] s] _.
    apply bind_stops; [apply Hf|]. discriminate.
  Qed.
End Term.

(** ** The media filter's methods *)
Lemma u64_stops : forall b, stops (str_to_uint64 b).
Proof. intros b. unfold str_to_uint64. destruct (blen b =? 8); discriminate. Qed.
Lemma i32_stops : forall b, stops (str_to_sint32 b).
Proof. intros b. unfold str_to_sint32. destruct (blen b =? 4); discriminate. Qed.
Lemma p32_stops : forall z, stops (uint32_to_str z).
Proof. intros b. unfold uint32_to_str. destruct (_ && _); discriminate. Qed.
Lemma ps32_stops : forall z, stops (sint32_to_str z).
Proof. intros b. unfold sint32_to_str. destruct (_ && _); discriminate. Qed.
Lemma p64_stops : forall z, stops (uint64_to_str z).
Proof. intros b. unfold uint64_to_str. destruct (_ && _); discriminate. Qed.
Lemma byte_stops : forall i b, stops (byte_at i b).
Proof. intros. unfold byte_at. destruct (nth_error _ _); discriminate. Qed.
Global Hint Resolve ok_stops u32_stops u64_stops i32_stops p32_stops ps32_stops p64_stops byte_stops : stops.

Ltac stops1 :=
  match goal with
  | |- stops (bind _ _) => apply bind_stops; [|intros ? _]
  | |- stops (let '(_, _) := ?x in _) => destruct x
  | |- stops (match ?x with _ => _ end) => destruct x
  | |- stops (Ok _) => apply ok_stops
  | |- stops (Err _) => discriminate
  end.
Lemma emsg_stops : forall e, stops (emsg_box e).
Proof. intros. unfold emsg_box. repeat (stops1 || auto with stops). Qed.
Lemma scte35_emsg_stops : forall ts a b c d e, stops (scte35_emsg ts a b c d e).
Proof. intros. unfold scte35_emsg. repeat (stops1 || auto with stops). Qed.
Global Hint Resolve emsg_stops scte35_emsg_stops : stops.
Lemma scte35box_stops : forall k n d, stops (create_scte35box k n d).
Proof. intros. unfold create_scte35box, create_scte35_emsg. repeat (stops1 || auto with stops). Qed.
Lemma trun_loop_stops : forall n data flags dflt pos dur, stops (trun_loop n data flags dflt pos dur).
Proof. induction n; intros; cbn [trun_loop]; repeat (stops1 || auto with stops). Qed.
Lemma saio_loop_stops : forall n w rd wr data delta pos, (forall b, stops (rd b)) -> (forall z, stops (wr z)) ->
  stops (saio_loop n w rd wr data delta pos).
Proof. induction n; intros; cbn [saio_loop]; repeat (stops1 || auto with stops). Qed.
Global Hint Resolve scte35box_stops trun_loop_stops saio_loop_stops : stops.
Lemma m_method_stops : forall p t m d st, m_method p t = Some m -> stops (m d st).
Proof.
  intros p t m d st H. unfold m_method in H.
  repeat match type of H with (if ?b then _ else _) = _ => destruct b end; try discriminate; injection H as <-;
    unfold process_styp, process_tfhd, process_mfhd, process_trun, process_saio, process_sidx, process_tfdt;
    repeat (stops1 || auto with stops).
Qed.
Lemma m_finalize_stops : forall p o b st, stops (m_finalize p o b st).
Proof.
  intros. unfold m_finalize, create_sidx, create_emsg, pack_opt. repeat (stops1 || auto with stops).
Qed.

Lemma media_filter_stops : forall p data st fuel, scan_top tops containers data -> (enough data <= fuel)%nat ->
  mp4_filter (m_class p) fuel data st = mp4_filter (m_class p) (enough data) data st /\
  stops (mp4_filter (m_class p) (enough data) data st).
Proof.
  intros. apply mp4_filter_stops; auto.
  - exact (m_method_stops p).
  - exact (m_finalize_stops p).
Qed.

Lemma mdat_loop_stops : forall p data d, scan_top [] [] d -> forall f1 f2 pos output sz,
  d = bdrop pos data -> 0 <= pos -> (List.length d + 1 <= f1)%nat -> (List.length d + 1 <= f2)%nat ->
  mdat_loop p f1 data pos output sz = mdat_loop p f2 data pos output sz /\ stops (mdat_loop p f1 data pos output sz).
Proof.
  intros p data d SC. induction SC as [d SH|d k L4 EK PK SC1 SC2 IH];
    intros f1 f2 pos output sz ED PP F1 F2;
    (destruct f1 as [|f1]; [lia|]); (destruct f2 as [|f2]; [lia|]); cbn [mdat_loop].
  - destruct (Z.ltb_spec pos (blen data)) as [LT|GE]; [|split; [reflexivity|discriminate]].
    rewrite slice_take, <- ED, u32_err.
    2:{ assert (X := blen_nonneg d). rewrite blen_btake by lia. lia. }
    split; [reflexivity|discriminate].
  - destruct (Z.ltb_spec pos (blen data)) as [LT|GE]; [|split; [reflexivity|discriminate]].
    rewrite (slice_take pos 4), <- ED, u32_ok by (rewrite blen_btake; lia). cbn [bind]. rewrite <- EK.
    rewrite slice_take, <- ED.
    assert (L2 : (List.length (bdrop k d) < List.length d)%nat).
    { unfold bdrop, blen in *. rewrite skipn_length. lia. }
    assert (EN : bdrop k d = bdrop (pos + k) data).
    { rewrite ED. apply drop_drop; lia. }
    destruct (bytes_eqb (bslice (pos + 4) (pos + 8) data) (bstr "mdat")).
    + assert (ST : stops (update_ttml_mdat p (btake k d))).
      { unfold update_ttml_mdat. repeat (stops1 || auto with stops). }
      destruct (update_ttml_mdat p (btake k d)) as [[o n]|e]; cbn [bind].
      * apply IH; auto; lia.
      * split; [reflexivity|]. intros X. apply ST. congruence.
    + apply IH; auto; lia.
Qed.
