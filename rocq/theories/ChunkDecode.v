(** decode_fragment and the written chunks. *)
From Coq Require Import ZifyBool ZifyNat.
From Verif Require Import Base BaseProofs BytesModel BytesProofs BoxSpec Mp4Proofs ChunkModel ChunkSpec ChunkProofs ChunkParse.
From Verif Require MediaSpec.
Open Scope Z_scope.

Lemma kids_app : forall t a b, kids_of_type t (a ++ b) = kids_of_type t a ++ kids_of_type t b.
Proof. intros. unfold kids_of_type. apply filter_app. Qed.
Lemma kids_cons : forall t x b, kids_of_type t (x :: b) = if bytes_eqb (p_type x) (bstr t) then x :: kids_of_type t b else kids_of_type t b.
Proof. intros. reflexivity. Qed.

(** *** Finding the boxes *)
Section Find.
  Context (f : frag).
  Hypothesis (OK : frag_ok f).
  Lemma find_moof : kids_of_type "moof" (top_ims f) = [PBox (bstr "moof") (blen (enc (f_moof f))) (moof_pos f) (moof_ims f)].
  Proof.
    destruct (frag_parts_ok f OK) as [FP FA1 FA2 FA3 FK1 FK2 FK3 FK4 FPO FM FT FMF FH FD FR].
    unfold top_ims. rewrite kids_app, kids_cons. rewrite !inert_filter2 by (try apply FP; try apply FPO; cbn; tauto). reflexivity.
  Qed.
  Lemma find_mfhd : kids_of_type "mfhd" (moof_ims f) = [im_of (mfhd_pos f) (mfhd_leaf f)].
  Proof.
    destruct (frag_parts_ok f OK) as [FP FA1 FA2 FA3 FK1 FK2 FK3 FK4 FPO FM FT FMF FH FD FR].
    unfold moof_ims. rewrite kids_app, kids_cons, kids_app, kids_cons.
    rewrite !inert_filter by (try apply FA1; try apply FA2; try apply FA3; cbn; tauto). reflexivity.
  Qed.
  Lemma find_traf : kids_of_type "traf" (moof_ims f) = [PBox (bstr "traf") (blen (enc (f_traf f))) (traf_pos f) (traf_ims f)].
  Proof.
    destruct (frag_parts_ok f OK) as [FP FA1 FA2 FA3 FK1 FK2 FK3 FK4 FPO FM FT FMF FH FD FR].
    unfold moof_ims. rewrite kids_app, kids_cons, kids_app, kids_cons.
    rewrite !inert_filter2 by (try apply FA1; try apply FA2; try apply FA3; cbn; tauto). reflexivity.
  Qed.
  Lemma find_leaf : forall t b p, In (t, b, p) [("tfhd"%string, tfhd_leaf f, tfhd_pos f); ("tfdt"%string, tfdt_leaf f, tfdt_pos f); ("trun"%string, trun_leaf f, trun_pos f)] ->
    kids_of_type t (traf_ims f) = [im_of p b].
  Proof.
    destruct (frag_parts_ok f OK) as [FP FA1 FA2 FA3 FK1 FK2 FK3 FK4 FPO FM FT FMF FH FD FR].
    intros t b p [E|[E|[E|[]]]]; injection E as <- <- <-; unfold traf_ims;
    rewrite kids_app, kids_cons, kids_app, kids_cons, kids_app, kids_cons;
    rewrite !inert_filter by (try apply FK1; try apply FK2; try apply FK3; try apply FK4; cbn; tauto); reflexivity.
  Qed.
End Find.

Lemma bslice_bdrop : forall n a z b, 0 <= n -> 0 <= a -> bslice a z (bdrop n b) = bslice (n + a) (n + z) b.
Proof. intros. unfold bslice. rewrite bdrop_bdrop by lia. f_equal. lia. Qed.

Lemma decode_frag : forall f time d i, frag_ok f -> Forall cto_ok (rn_entries (f_run f)) -> MediaSpec.decode_time (f_tfdt f) time ->
  0 <= media_at f ->
  decode_fragment (encs (f_boxes f)) (Some (i, td_dur d, td_size d, td_flags d)) =
  Ok (samples_loop (map row_of (rn_entries (f_run f))) (either (th_dur (f_head f)) (td_dur d)) (either (th_size (f_head f)) (td_size d))
        (either (th_sflags (f_head f)) (td_flags d)) (bdrop (media_at f) (encs (f_boxes f))) time 0).
Proof.
  intros f time d i OK CT DT AT. unfold decode_fragment.
  rewrite (parse_frag f OK CT time DT). cbn [bind]. unfold find1. rewrite find_moof by exact OK. cbn [first_box bind p_kids].
  unfold find2. rewrite find_traf by exact OK. cbn [flat_map p_kids]. rewrite !app_nil_r.
  rewrite (find_leaf f OK "tfhd" (tfhd_leaf f) (tfhd_pos f)) by (cbn; tauto).
  rewrite (find_leaf f OK "tfdt" (tfdt_leaf f) (tfdt_pos f)) by (cbn; tauto).
  rewrite (find_leaf f OK "trun" (trun_leaf f) (trun_pos f)) by (cbn; tauto).
  cbn [first_box bind im_of p_offset].
  rewrite (read_tfhd f OK), (read_tfdt f time DT), (read_trun f OK CT). cbn [bind t_flags t_count t_data t_table h_base h_dur h_size h_flags].
  rewrite Nat2Z.id. rewrite (read_rows f OK CT).
  assert (G : forall o t, default o (Some t) = Ok (either o t)) by (intros [z|] t; reflexivity).
  cbn [trex_dur trex_size trex_flags]. rewrite !G. cbn [bind]. do 2 f_equal.
  change (match th_base (f_head f) with Some b => b | None => moof_pos f end) with (either (th_base (f_head f)) (blen (encs (f_pre f)))).
  change (match rn_offset (f_run f) with Some o => o | None => 0 end) with (either (rn_offset (f_run f)) 0).
  fold (media_at f). unfold py_from. replace (media_at f <? 0) with false by lia. reflexivity.
Qed.

(** *** The decoded samples *)
Definition alike (s : sample) (m : media_sample) : Prop :=
  s_data s = ms_data m /\ s_time s = ms_time m /\ s_dur s = ms_dur m /\ s_cto s = ms_cto m.
Lemma loop_alike : forall d h file at_ l first pos time, 0 <= at_ -> 0 <= pos -> (forall e, In e l -> 0 <= entry_size d h e) ->
  Forall2 alike (samples_loop (map row_of l) (either (th_dur h) (td_dur d)) (either (th_size h) (td_size d)) (either (th_sflags h) (td_flags d)) (bdrop at_ file) time pos)
    (entries_samples d h file first l time (at_ + pos)).
Proof.
  intros d h file at_ l. induction l as [|e l IH]; intros first pos time A P S; [constructor|].
  cbn [map samples_loop entries_samples row_of e_dur e_size e_flags e_cto].
  assert (S1 := S e (or_introl eq_refl)).
  change (match en_dur e with Some v => v | None => either (th_dur h) (td_dur d) end) with (entry_dur d h e).
  change (match en_size e with Some v => v | None => either (th_size h) (td_size d) end) with (entry_size d h e).
  constructor.
  - unfold alike. cbn [s_data s_time s_dur s_cto ms_data ms_time ms_dur ms_cto]. split; [|split; [reflexivity|split; reflexivity]].
    rewrite bslice_bdrop by lia. f_equal. lia.
  - rewrite <- Z.add_assoc. apply IH; [exact A|lia|intros; apply S; right; assumption].
Qed.
