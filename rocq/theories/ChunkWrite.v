(** The chunks that are written. *)
From Coq Require Import ZifyBool ZifyNat.
From Verif Require Import Base BaseProofs BytesModel BytesProofs BoxSpec Mp4Proofs ChunkModel ChunkSpec ChunkProofs ChunkParse ChunkDecode.
From Verif Require MediaSpec.
Open Scope Z_scope.

Definition flags_of (s : sample) : Z := if s_sync s then 33554432 else 16842752.
Definition entry_of (comp : bool) (s : sample) : entry :=
  mk_entry (Some (s_dur s)) (Some (blen (s_data s))) (Some (flags_of s)) (if comp then Some (s_cto s) else None).
Definition moof_size (l : list sample) : Z := 8 + 16 + (8 + 16 + 20 + trun_size l).
Definition media_of (l : list sample) : bytes := List.concat (map s_data l).
Definition chunk_run (l : list sample) : run :=
  mk_run 0 (if use_comp_off l then 3841 else 1793) (Some (moof_size l + 8)) None (map (entry_of (use_comp_off l)) l).
Definition chunk_frag (nr track : Z) (l : list sample) (t : Z) : frag :=
  mk_frag [] [] (be32 0) nr [] [] (mk_head 0 131072 track None None None None None) [] (1 :: [0; 0; 0] ++ be64 t) [] (chunk_run l) [] []
    [Leaf (bstr "mdat") (media_of l)].

Fixpoint timed (l : list sample) (t : Z) : Prop :=
  match l with [] => True | s :: r => s_time s = t /\ timed r (t + s_dur s) end.
Lemma timed_app : forall a b t, timed (a ++ b) t <-> timed a t /\ timed b (t + total s_dur a).
Proof.
  intros a b. induction a as [|s a IH]; intros t; cbn [app timed total].
  - rewrite Z.add_0_r. tauto.
  - rewrite IH. rewrite Z.add_assoc. tauto.
Qed.
Lemma timed_parts : forall parts t, timed (List.concat parts) t -> Forall (fun p => exists t', timed p t') parts.
Proof.
  intros parts. induction parts as [|p ps IH]; intros t H; constructor; cbn [List.concat] in H; apply timed_app in H; destruct H as (H1 & H2); eauto.
Qed.

Lemma ser_ok : forall z, 0 <= z < 4294967296 -> serialize_u32 z = be32 z.
Proof.
  intros z Z. unfold serialize_u32. change 4294967295 with (Z.ones 32). rewrite Z.land_ones by lia.
  change (2 ^ 32) with 4294967296. rewrite Z.mod_small by exact Z. apply be32_eq.
Qed.
Definition sample_ok (s : sample) : Prop := 0 <= s_dur s < 4294967296 /\ blen (s_data s) < 4294967296 /\ 0 <= s_cto s < 4294967296.
Lemma row_bytes : forall comp s, sample_ok s -> trun_row comp s = entry_payload (entry_of comp s).
Proof.
  intros comp s (D & S & C). unfold trun_row, entry_payload, entry_of. cbn [en_dur en_size en_flags en_cto opt32].
  assert (Q := blen_nonneg (s_data s)).
  rewrite !ser_ok by (try lia; unfold flags_of; destruct (s_sync s); lia). unfold flags_of.
  destruct comp; cbn [opt_s32]; [rewrite Z.mod_small by lia|]; reflexivity.
Qed.
Lemma rows_bytes : forall comp l, Forall sample_ok l -> List.concat (map (trun_row comp) l) = List.concat (map entry_payload (map (entry_of comp) l)).
Proof.
  intros comp l H. induction H as [|s l S H IH]; [reflexivity|]. cbn [map List.concat]. rewrite row_bytes, IH by exact S. reflexivity.
Qed.
Lemma blen_rows : forall comp l, blen (List.concat (map entry_payload (map (entry_of comp) l))) = Z.of_nat (List.length l) * (12 + (if comp then 4 else 0)).
Proof.
  intros comp l. induction l as [|s l IH]; [reflexivity|]. cbn [map List.concat]. rewrite blen_app, IH.
  unfold entry_payload, entry_of. cbn [en_dur en_size en_flags en_cto opt32]. rewrite !blen_app, !blen_be32. cbn [List.length].
  destruct comp; cbn [opt_s32]; rewrite ?blen_be32, ?blen_nil; lia.
Qed.
Lemma len_run : forall l, blen (run_payload (chunk_run l)) = trun_size l - 8.
Proof.
  intros. unfold run_payload, chunk_run, trun_size. cbn [rn_version rn_flags rn_offset rn_first rn_entries opt_s32 opt32].
  rewrite !blen_app, !blen_be32, blen_rows, blen_nil. lia.
Qed.
Lemma trun_small : forall l, Z.of_nat (List.length l) < 134000000 -> 20 <= trun_size l < 2147483000.
Proof. intros l H. unfold trun_size. destruct (use_comp_off l); lia. Qed.

Definition as_media (s : sample) : media_sample := mk_media_sample (s_data s) (s_time s) (s_dur s) (flags_of s) (s_cto s).
Lemma entries_back : forall d h comp l pre post pos t, pos = blen pre -> timed l t -> (comp = false -> Forall (fun s => s_cto s = 0) l) ->
  entries_samples d h (pre ++ media_of l ++ post) None (map (entry_of comp) l) t pos = map as_media l.
Proof.
  intros d h comp l. induction l as [|s l IH]; intros pre post pos t P T C; [reflexivity|].
  cbn [map entries_samples]. unfold media_of. cbn [map List.concat]. fold (media_of l). destruct T as (T1 & T2).
  change (entry_size d h (entry_of comp s)) with (blen (s_data s)). change (entry_dur d h (entry_of comp s)) with (s_dur s).
  change (entry_flags d h None (entry_of comp s)) with (flags_of s). change (en_cto (entry_of comp s)) with (if comp then Some (s_cto s) else None).
  f_equal.
  - unfold as_media. rewrite <- app_assoc. rewrite slice_at by lia. f_equal; [symmetry; exact T1|].
    destruct comp; [reflexivity|]. assert (C' := C eq_refl). inversion C'; subst. cbn [either]. congruence.
  - replace (pre ++ (s_data s ++ media_of l) ++ post) with ((pre ++ s_data s) ++ media_of l ++ post) by (rewrite <- !app_assoc; reflexivity).
    apply IH; [rewrite blen_app; lia|exact T2|]. intros E. specialize (C E). inversion C; assumption.
Qed.
Lemma comp_off : forall l, use_comp_off l = false -> Forall (fun s => s_cto s = 0) l.
Proof.
  intros l. unfold use_comp_off. induction l as [|s l IH]; intros H; constructor; cbn [existsb] in H; apply Bool.orb_false_iff in H; destruct H; [lia|auto].
Qed.
Lemma entries_len : forall d h comp l, fold_right (fun e a => entry_size d h e + a) 0 (map (entry_of comp) l) = blen (media_of l).
Proof.
  intros d h comp l. induction l as [|s l IH]; [reflexivity|]. cbn [map fold_right]. rewrite IH. unfold media_of. cbn [map List.concat]. rewrite blen_app. reflexivity.
Qed.
Section Chunk.
  Context (nr track t : Z) (l : list sample).
  Hypothesis (NR : 0 <= nr < 4294967296) (TR : 0 <= track < 4294967296) (T : 0 <= t < 18446744073709551616).
  Hypothesis (NE : l <> []) (TI : timed l t) (OKS : Forall sample_ok l).
  Hypothesis (CNT : Z.of_nat (List.length l) < 134000000) (SZ : 8 + blen (media_of l) < 4294967296).
  Notation cf := (chunk_frag nr track l t).
  Lemma len_traf : blen (enc (f_traf cf)) = 8 + 16 + 20 + trun_size l.
  Proof.
    rewrite blen_enc by reflexivity. rewrite traf_body. cbn [f_k1 f_k2 f_k3 f_k4 chunk_frag encs app].
    rewrite !blen_app, !blen_enc by reflexivity. cbn [tfhd_leaf tfdt_leaf trun_leaf body chunk_frag f_head f_tfdt f_run].
    rewrite len_run. unfold head_payload. cbn [th_version th_flags th_track th_base th_desc th_dur th_size th_sflags opt64 opt32].
    rewrite !blen_app, !blen_be32. rewrite !blen_cons, !blen_app. rewrite !blen_cons, !blen_nil. 
    assert (Q : blen (be64 t) = 8) by apply blen_be64. lia.
  Qed.
  Lemma len_moof : blen (enc (f_moof cf)) = moof_size l.
  Proof.
    rewrite blen_enc by reflexivity. rewrite moof_body. cbn [f_a1 f_a2 f_a3 chunk_frag encs app]. rewrite !blen_app, len_traf.
    rewrite blen_enc by reflexivity. cbn [mfhd_leaf body chunk_frag f_vf f_nr]. rewrite blen_app, !blen_be32, blen_nil. unfold moof_size. lia.
  Qed.
  Lemma chunk_bytes : create_moof nr track l = Ok (enc (f_moof cf)) /\ create_mdat l = enc (Leaf (bstr "mdat") (media_of l)).
  Proof.
    assert (TS := trun_small l CNT).
    split.
    - unfold create_moof. destruct l as [|s0 r] eqn:E; [contradiction|]. rewrite <- E in *. cbn [bind].
      replace (s_time s0) with t by (rewrite E in TI; symmetry; apply TI). unfold tfdt_bytes. rewrite p64_ok by exact T. cbn [bind].
      rewrite be64_eq by exact T. f_equal. rewrite (enc_hd (f_moof cf)). unfold hd8. rewrite <- blen_enc by reflexivity. rewrite len_moof.
      rewrite moof_body. cbn [f_a1 f_a2 f_a3 chunk_frag encs app]. rewrite app_nil_r.
      rewrite (enc_hd (f_traf cf)). unfold hd8. rewrite <- blen_enc by reflexivity. rewrite len_traf, traf_body.
      cbn [f_k1 f_k2 f_k3 f_k4 chunk_frag encs app]. rewrite app_nil_r.
      cbn [enc tfhd_leaf tfdt_leaf trun_leaf mfhd_leaf chunk_frag f_head f_tfdt f_run f_vf f_nr btype f_moof f_traf].
      unfold mfhd_bytes, tfhd_bytes, trun_bytes. fold (moof_size l).
      rewrite len_run. unfold head_payload. cbn [th_version th_flags th_track th_base th_desc th_dur th_size th_sflags opt64 opt32].
      unfold run_payload, chunk_run. cbn [rn_version rn_flags rn_offset rn_first rn_entries opt_s32 opt32].
      rewrite rows_bytes by exact OKS. rewrite map_length.
      rewrite !ser_ok by first [lia | unfold moof_size; lia | destruct (use_comp_off l); cbn; lia].
      rewrite (Z.mod_small (moof_size l + 8)) by (unfold moof_size; lia).
      replace (Z.lor 1793 (if use_comp_off l then 2048 else 0)) with (if use_comp_off l then 3841 else 1793) by (destruct (use_comp_off l); reflexivity).
      rewrite !blen_app, !blen_be32, !blen_nil, !blen_cons, !blen_app, !blen_cons, blen_be64, blen_nil.
      replace (8 + (trun_size l - 8)) with (trun_size l) by lia. rewrite !app_nil_r. rewrite <- !app_assoc. unfold be64. reflexivity.
    - unfold create_mdat. fold (media_of l). cbn [enc]. assert (Q := blen_nonneg (media_of l)). rewrite ser_ok by lia. reflexivity.
  Qed.
  Lemma chunk_ok : frag_ok cf.
  Proof.
    assert (TS := trun_small l CNT). assert (LT := len_traf). assert (LM := len_moof).
    unfold frag_ok. split; [|split; [|split; [reflexivity|split; [exact NR|split]]]].
    - unfold f_boxes. cbn [chunk_frag f_pre f_post app boxes_ok]. split; [|split; [|exact I]].
      + unfold f_moof. apply box_ok_node. split; [reflexivity|]. split; [cbn; tauto|]. split.
        * unfold f_moof in LM. rewrite blen_enc in LM by reflexivity. cbn [body] in LM. rewrite LM. unfold moof_size. lia.
        * cbn [chunk_frag f_a1 f_a2 f_a3 app boxes_ok f_vf f_nr]. split; [|split; [|exact I]].
          -- cbn [box_ok]. split; [reflexivity|]. split; [intros A; repeat (destruct A as [A|A]; [discriminate A|]); exact A|]. split; [reflexivity|exact I].
          -- unfold f_traf. apply box_ok_node. split; [reflexivity|]. split; [cbn; tauto|]. split.
             ++ unfold f_traf in LT. rewrite blen_enc in LT by reflexivity. cbn [body] in LT. rewrite LT. lia.
             ++ cbn [chunk_frag f_k1 f_k2 f_k3 f_k4 app boxes_ok f_head f_tfdt f_run].
                split; [|split; [|split; [|exact I]]]; cbn [box_ok];
                (split; [reflexivity|]; split; [intros A; repeat (destruct A as [A|A]; [discriminate A|]); exact A|]; split; [|exact I]).
                ** reflexivity.
                ** reflexivity.
                ** rewrite len_run. lia.
      + cbn [box_ok]. split; [reflexivity|]. split; [intros A; repeat (destruct A as [A|A]; [discriminate A|]); exact A|]. split; [exact SZ|exact I].
    - cbn [chunk_frag f_pre f_a1 f_a2 f_k1 f_k2 f_k3 f_k4 f_a3 f_post app]. constructor; [|constructor]. cbn [inert].
      split; [intros A; repeat (destruct A as [A|A]; [discriminate A|]); exact A|reflexivity].
    - unfold head_ok. cbn [chunk_frag f_head th_version th_flags th_track th_base th_desc th_dur th_size th_sflags within u32 has].
      repeat (split; [first [exact I | reflexivity | lia | exact TR]|]). reflexivity.
    - unfold run_ok. cbn [chunk_frag f_run]. unfold chunk_run. cbn [rn_version rn_flags rn_offset rn_first rn_entries within u32 has].
      split; [lia|]. split; [destruct (use_comp_off l); lia|]. split; [unfold moof_size; lia|]. split; [exact I|].
      split; [destruct (use_comp_off l); reflexivity|]. split; [destruct (use_comp_off l); reflexivity|].
      split; [rewrite map_length; destruct l; [contradiction|cbn [List.length] in *; lia]|].
      set (comp := use_comp_off l). clearbody comp. clear - OKS. induction OKS as [|s l S H IH]; cbn [map]; [constructor|]. constructor; [|exact (IH H)].
      destruct S as (D & S & C). assert (Q := blen_nonneg (s_data s)). unfold entry_ok, entry_of, u32, within. cbn [en_dur en_size en_flags en_cto has].
      change (0 =? 0) with true. cbv iota.
      split; [exact D|]. split; [lia|]. split; [unfold flags_of; destruct (s_sync s); lia|].
      destruct comp; (split; [first [exact C|exact I]|]); repeat (split; [reflexivity|]); reflexivity.
  Qed.
  Lemma chunk_says : forall d, fragment_says d (enc (f_moof cf) ++ create_mdat l) nr track (map as_media l).
  Proof.
    intros d. destruct chunk_bytes as (_ & MD).
    assert (FILE : enc (f_moof cf) ++ create_mdat l = encs (f_boxes cf)).
    { rewrite MD. unfold f_boxes. cbn [chunk_frag f_pre f_post app encs]. rewrite app_nil_r. reflexivity. }
    exists cf, t. split; [exact FILE|]. split; [exact chunk_ok|]. split; [reflexivity|]. split; [reflexivity|].
    split; [cbn [chunk_frag f_tfdt]; apply MediaSpec.DT1; [lia|reflexivity|exact T]|].
    assert (TS := trun_small l CNT).
    assert (MA : media_at cf = moof_size l + 8).
    { unfold media_at. cbn [chunk_frag f_head th_base either f_pre encs f_run chunk_run rn_offset]. rewrite blen_nil. lia. }
    assert (ML : media_len d cf = blen (media_of l)) by apply entries_len.
    rewrite MA, ML. assert (Q := blen_nonneg (media_of l)).
    split; [unfold moof_size; lia|]. split; [exact Q|]. split.
    - rewrite blen_app, len_moof, MD. rewrite blen_enc by reflexivity. cbn [body]. lia.
    - unfold frag_samples. rewrite MA, <- FILE, MD. rewrite (enc_hd (Leaf (bstr "mdat") (media_of l))). cbn [body].
      cbn [chunk_frag f_run chunk_run rn_first rn_entries f_head].
      rewrite app_assoc. rewrite <- (app_nil_r (media_of l)) at 2. symmetry. apply entries_back; [|exact TI|apply comp_off].
      rewrite blen_app. fold cf. rewrite len_moof, blen_hd by reflexivity. reflexivity.
  Qed.
End Chunk.
