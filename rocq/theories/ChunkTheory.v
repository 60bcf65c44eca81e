(** Theorems about chunks (C40-C43). *)
From Coq Require Import Lqa ZifyBool ZifyNat.
From Verif Require Import Base BaseProofs BytesModel BytesProofs BoxSpec Mp4Proofs ConfigModel ProxyModel ProxySpec ProxyProofs ProxyTheory.
From Verif Require Import ChunkModel ChunkSpec ChunkProofs ChunkParse ChunkDecode ChunkWrite ChunkAll.
From Verif Require MediaSpec.
Open Scope Z_scope.

(** *** C40 *)
Lemma C40_chunking_pf : forall samples d, 0 < d -> chunking s_dur d samples (partition samples d).
Proof. exact partition_chunking. Qed.
Example ex_chunking : let s t := mk_sample [t] t 3 true 0 in
  partition [s 0; s 3; s 6; s 9; s 12] 5 = [[s 0; s 3]; [s 6; s 9]; [s 12]].
Proof. reflexivity. Qed.
(** A chunk duration that rounds to 0 ticks gives an empty chunk, and an error. *)
Lemma C40_zero_pf : forall samples nr track, samples <> [] -> encode_parts nr track (partition samples 0) = Err "IndexError".
Proof. intros [|s l] nr track H; [contradiction|]. reflexivity. Qed.
Example ex_zero : let c := set_chunkdur (Some (1 # 100000)%Q) ex_c in
  chunk_ticks c (mkRep "V1" "video" 90000) = Ok 0.
Proof. reflexivity. Qed.

(** *** C41 *)
Lemma C41_chunks_partial_pf : forall d file nr track samples i duration,
  fragment_says d file nr track samples -> 0 < duration ->
  0 <= td_dur d < 4294967296 -> 0 <= td_size d < 4294967296 ->
  Forall (fun m => 0 <= ms_cto m < 2147483648) samples -> Forall (fun m => ms_time m < 18446744073709551616) samples ->
  Z.of_nat (List.length samples) < 134000000 -> 8 + blen file < 4294967296 ->
  exists chunks parts, chunk_segment file duration (Some (i, td_dur d, td_size d, td_flags d)) = Ok chunks /\
    chunking ms_dur duration samples parts /\
    Forall2 (fun c part => forall d', exists l, fragment_says d' c nr track l /\ Forall2 same_sample l part) chunks parts.
Proof.
  intros d file nr track ss i D (f & IS) DP TD TS CT TI CNT FS.
  destruct (all_ok f d file nr track ss i D IS DP TD TS CT TI CNT FS) as (chunks & sparts & parts & E & CH & AL & SA & _).
  exists chunks, parts. split; [exact E|]. split; [exact CH|]. clear - AL SA. revert chunks SA.
  induction AL as [|sp p sparts parts A AL IH]; intros chunks SA; inversion SA as [|c ? chunks' ? S1 S2]; subst; constructor.
  - intros d'. exists (map as_media sp). split; [apply S1|]. apply alike_same. exact A.
  - apply IH. exact S2.
Qed.

(** Concrete segments: sequence number 7, track 1, four samples at 9000. *)
Definition ex_head (dur flags : option Z) : head :=
  mk_head 0 (131072 + (if has dur then 8 else 0) + (if has flags then 32 else 0)) 1 None None dur None flags.
Definition ex_entry (size : Z) (flags cto : option Z) : entry := mk_entry None (Some size) flags cto.
Definition ex_run (v fl : Z) (first : option Z) (l : list entry) : run := mk_run v fl (Some (88 + Z.of_nat (List.length (run_payload (mk_run v fl (Some 0) first l))))) first l.
Definition ex_frag (h : head) (r : run) : frag :=
  mk_frag [Leaf (bstr "styp") (bstr "msdh")] [] (be32 0) 7 [] [] h [] (1 :: [0; 0; 0] ++ be64 9000) [] r [] [] [Leaf (bstr "mdat") [11; 12; 21; 31; 32; 33; 41]].
Definition ex_defaults : track_defaults := mk_defaults 1000 0 0.
Ltac not_in := intros A; repeat (destruct A as [A|A]; [discriminate A|]); exact A.
Ltac frag_tac :=
  match goal with |- frag_ok ?x => try unfold x end;
  unfold frag_ok; split; [|split; [|split; [reflexivity|split; [cbn; lia|split]]]];
  [ unfold f_boxes; cbn [ex_frag chunk_frag f_pre f_post app boxes_ok];
    repeat match goal with
    | |- _ /\ _ => split
    | |- True => exact I
    | |- box_ok _ _ (f_moof _) => unfold f_moof; apply box_ok_node; cbn [ex_frag chunk_frag f_a1 f_a2 f_a3 app boxes_ok f_vf f_nr]
    | |- box_ok _ _ (f_traf _) => unfold f_traf; apply box_ok_node; cbn [ex_frag chunk_frag f_k1 f_k2 f_k3 f_k4 app boxes_ok f_head f_tfdt f_run]
    | |- box_ok _ _ (Leaf _ _) => cbn [box_ok]
    | |- ~ In _ _ => not_in
    | |- In _ _ => cbn; tauto
    | |- any_payload _ _ => exact I
    | |- _ < _ => vm_compute; reflexivity
    | |- _ = _ => vm_compute; reflexivity
    end
  | cbn [ex_frag chunk_frag f_pre f_a1 f_a2 f_k1 f_k2 f_k3 f_k4 f_a3 f_post app]; repeat constructor; try (cbn [inert]; not_in); vm_compute; reflexivity
  | unfold head_ok; cbn; repeat (split; [first [exact I | reflexivity | lia]|]); first [reflexivity | exact I]
  | unfold run_ok; cbn; repeat (split; [first [exact I | reflexivity | lia]|]); repeat constructor; cbn; try lia; reflexivity ].

Definition ex_f1 : frag := ex_frag (ex_head (Some 1000) None)
  (ex_run 0 3585 None [ex_entry 2 (Some 33554432) (Some 0); ex_entry 1 (Some 16842752) (Some 2000); ex_entry 3 (Some 16842752) (Some 500); ex_entry 1 (Some 33554432) (Some 0)]).
Lemma ex_f1_ok : frag_ok ex_f1.
Proof. frag_tac. Qed.
Definition ex_s1 : list media_sample :=
  [mk_media_sample [11; 12] 9000 1000 33554432 0; mk_media_sample [21] 10000 1000 16842752 2000;
   mk_media_sample [31; 32; 33] 11000 1000 16842752 500; mk_media_sample [41] 12000 1000 33554432 0].
Lemma ex_f1_says : fragment_says ex_defaults (encs (f_boxes ex_f1)) 7 1 ex_s1.
Proof.
  exists ex_f1, 9000. split; [reflexivity|]. split; [exact ex_f1_ok|]. split; [reflexivity|]. split; [reflexivity|].
  split; [apply MediaSpec.DT1; [lia|reflexivity|lia]|]. split; [vm_compute; discriminate|]. split; [vm_compute; discriminate|]. split; [vm_compute; discriminate|vm_compute; reflexivity].
Qed.
Example ex_chunks_hyps : Forall (fun m => 0 <= ms_cto m < 2147483648) ex_s1 /\ Forall (fun m => ms_time m < 18446744073709551616) ex_s1 /\
  Z.of_nat (List.length ex_s1) < 134000000 /\ 8 + blen (encs (f_boxes ex_f1)) < 4294967296.
Proof. repeat split; repeat constructor; cbn; lia. Qed.
Example ex_chunks : exists c1 c2, chunk_segment (encs (f_boxes ex_f1)) 2000 (Some (1, 1000, 0, 0)) = Ok [c1; c2] /\
  bdrop (blen c1 - 3) c1 = [11; 12; 21] /\ bdrop (blen c2 - 4) c2 = [31; 32; 33; 41].
Proof. eexists. eexists. split; [vm_compute; reflexivity|]. split; vm_compute; reflexivity. Qed.

(** Version 1 of the run has signed offsets, which the chunks show as unsigned. *)
Definition ex_f2 : frag := ex_frag (ex_head (Some 1000) None) (ex_run 1 3585 None [ex_entry 2 (Some 33554432) (Some (-1)); ex_entry 5 (Some 16842752) (Some 3)]).
Lemma ex_f2_ok : frag_ok ex_f2.
Proof. frag_tac. Qed.
Lemma C41_negative_offset_refuted_pf : exists d file c l,
  fragment_says d file 7 1 l /\ chunk_segment file 5000 (Some (1, td_dur d, td_size d, td_flags d)) = Ok [c] /\
  map ms_cto l = [-1; 3] /\
  (forall d', exists l', fragment_says d' c 7 1 l' /\ map ms_cto l' = [4294967295; 3]).
Proof.
  set (l := [mk_sample [11; 12] 9000 1000 true 4294967295; mk_sample [21; 31; 32; 33; 41] 10000 1000 true 3]).
  exists ex_defaults, (encs (f_boxes ex_f2)), (encs (f_boxes (chunk_frag 7 1 l 9000))),
    [mk_media_sample [11; 12] 9000 1000 33554432 (-1); mk_media_sample [21; 31; 32; 33; 41] 10000 1000 16842752 3].
  split; [|split; [vm_compute; reflexivity|split; [reflexivity|]]].
  - exists ex_f2, 9000. split; [reflexivity|]. split; [exact ex_f2_ok|]. split; [reflexivity|]. split; [reflexivity|].
    split; [apply MediaSpec.DT1; [lia|reflexivity|lia]|]. split; [vm_compute; discriminate|]. split; [vm_compute; discriminate|]. split; [vm_compute; discriminate|vm_compute; reflexivity].
  - intros d'. exists (map as_media l). split; [|reflexivity].
    assert (E : encs (f_boxes (chunk_frag 7 1 l 9000)) = enc (f_moof (chunk_frag 7 1 l 9000)) ++ create_mdat l) by (vm_compute; reflexivity).
    rewrite E. apply chunk_says; try lia; [discriminate|repeat split; reflexivity| |cbn; lia|cbn; lia].
    unfold l. repeat constructor; cbn; lia.
Qed.

(** *** C42 *)
(** What the chunks say about sync samples, whatever the segment says: all are
    if the run has flags for each sample or the default flags are not 0, none
    otherwise. *)
Definition flagged (f : frag) (d : track_defaults) : Prop :=
  Z.testbit (rn_flags (f_run f)) 10 = true \/ either (th_sflags (f_head f)) (td_flags d) <> 0.
Lemma C42_flags_partial_pf : forall f d file nr track samples i duration,
  fragment_is f d file nr track samples -> 0 < duration ->
  0 <= td_dur d < 4294967296 -> 0 <= td_size d < 4294967296 ->
  Forall (fun m => 0 <= ms_cto m < 2147483648) samples -> Forall (fun m => ms_time m < 18446744073709551616) samples ->
  Z.of_nat (List.length samples) < 134000000 -> 8 + blen file < 4294967296 ->
  exists chunks parts, chunk_segment file duration (Some (i, td_dur d, td_size d, td_flags d)) = Ok chunks /\
    chunking ms_dur duration samples parts /\
    Forall2 (fun c part => forall d', exists l, fragment_says d' c nr track l /\ Forall2 same_sample l part /\
      Forall (fun m => is_sync m <-> flagged f d) l) chunks parts.
Proof.
  intros f d file nr track ss i D IS DP TD TS CT TI CNT FS.
  destruct (all_ok f d file nr track ss i D IS DP TD TS CT TI CNT FS) as (chunks & sparts & parts & E & CH & AL & SA & SY).
  exists chunks, parts. split; [exact E|]. split; [exact CH|]. clear - AL SA SY. revert chunks SA SY.
  induction AL as [|sp p sparts parts A AL IH]; intros chunks SA SY; inversion SA as [|c ? chunks' ? S1 S2]; inversion SY as [|? ? Y1 Y2]; subst; constructor.
  - intros d'. exists (map as_media sp). split; [apply S1|]. split; [apply alike_same; exact A|].
    clear - Y1. induction Y1 as [|s sp Y Y1 IH]; cbn [map]; constructor; [|exact IH].
    unfold is_sync, as_media, flags_of, flagged. cbn [ms_flags]. rewrite Y.
    destruct (Z.testbit (rn_flags (f_run f)) 10); cbn [orb]; [change (Z.testbit 33554432 16) with false; tauto|].
    destruct (either (th_sflags (f_head f)) (td_flags d) =? 0) eqn:Q; cbn [negb].
    + change (Z.testbit 16842752 16) with true. split; [discriminate|]. intros [H|H]; [discriminate|lia].
    + change (Z.testbit 33554432 16) with false. split; [intros _; right; lia|reflexivity].
  - apply IH; assumption.
Qed.
Example ex_flags : flagged ex_f1 ex_defaults /\ ~ flagged (ex_frag (ex_head None None) (ex_run 0 513 None [ex_entry 7 None None])) ex_defaults.
Proof. split; [left; reflexivity|]. intros [H|H]; [discriminate H|apply H; reflexivity]. Qed.
(** So the information survives when every sample of the segment is a sync
    sample and [flagged]. *)
Lemma C42_all_sync_partial_pf : forall f d file nr track samples i duration,
  fragment_is f d file nr track samples -> flagged f d -> Forall is_sync samples -> 0 < duration ->
  0 <= td_dur d < 4294967296 -> 0 <= td_size d < 4294967296 ->
  Forall (fun m => 0 <= ms_cto m < 2147483648) samples -> Forall (fun m => ms_time m < 18446744073709551616) samples ->
  Z.of_nat (List.length samples) < 134000000 -> 8 + blen file < 4294967296 ->
  exists chunks parts, chunk_segment file duration (Some (i, td_dur d, td_size d, td_flags d)) = Ok chunks /\
    chunking ms_dur duration samples parts /\
    Forall2 (fun c part => forall d', exists l, fragment_says d' c nr track l /\
      Forall2 (fun a b => same_sample a b /\ (is_sync a <-> is_sync b)) l part) chunks parts.
Proof.
  intros f d file nr track ss i D IS FL SY DP TD TS CT TI CNT FS.
  destruct (C42_flags_partial_pf f d file nr track ss i D IS DP TD TS CT TI CNT FS) as (chunks & parts & E & CH & F).
  exists chunks, parts. split; [exact E|]. split; [exact CH|].
  assert (SP : Forall (Forall is_sync) parts) by (apply in_concat_Forall; rewrite (ck_same _ _ _ _ CH); exact SY).
  clear - F SP FL. induction F as [|c p chunks parts G F IH]; inversion SP as [|? ? P1 P2]; subst; constructor; [|apply IH; exact P2].
  intros d'. destruct (G d') as (l & S & A & Y). exists l. split; [exact S|]. clear - A Y P1 FL.
  induction A as [|a b l p AB A IH]; inversion Y; inversion P1; subst; constructor; [|apply IH; assumption]. split; [exact AB|tauto].
Qed.
Example ex_all_sync : let f := ex_frag (ex_head (Some 1000) (Some 33554432)) (ex_run 0 513 None [ex_entry 3 None None; ex_entry 4 None None]) in
  flagged f ex_defaults /\ Forall is_sync (frag_samples ex_defaults f 9000).
Proof. split; [right; discriminate|]. vm_compute. repeat constructor. Qed.
(** In general it does not. *)
Lemma C42_non_sync_refuted_pf : exists d file c l,
  fragment_says d file 7 1 l /\ chunk_segment file 5000 (Some (1, td_dur d, td_size d, td_flags d)) = Ok [c] /\
  (exists m, In m l /\ ~ is_sync m) /\
  (forall d', exists l', fragment_says d' c 7 1 l' /\ Forall2 same_sample l' l /\ Forall is_sync l').
Proof.
  set (l := [mk_sample [11; 12] 9000 1000 true 0; mk_sample [21] 10000 1000 true 2000; mk_sample [31; 32; 33] 11000 1000 true 500; mk_sample [41] 12000 1000 true 0]).
  exists ex_defaults, (encs (f_boxes ex_f1)), (encs (f_boxes (chunk_frag 7 1 l 9000))), ex_s1.
  split; [exact ex_f1_says|]. split; [vm_compute; reflexivity|]. split.
  - exists (mk_media_sample [21] 10000 1000 16842752 2000). split; [cbn; tauto|]. discriminate.
  - intros d'. exists (map as_media l). split; [|split; [|repeat constructor]].
    + assert (E : encs (f_boxes (chunk_frag 7 1 l 9000)) = enc (f_moof (chunk_frag 7 1 l 9000)) ++ create_mdat l) by (vm_compute; reflexivity).
      rewrite E. apply chunk_says; try lia; [discriminate|repeat split; reflexivity| |cbn; lia|cbn; lia].
      unfold l. repeat constructor; cbn; lia.
    + unfold l, ex_s1. repeat constructor.
Qed.
(** Default flags 0 (and flags for the first sample only) say "sync sample". *)
Definition ex_f3 : frag := ex_frag (ex_head (Some 1000) None) (ex_run 0 517 (Some 33554432) [ex_entry 2 None None; ex_entry 5 None None]).
Lemma ex_f3_ok : frag_ok ex_f3.
Proof. frag_tac. Qed.
Lemma C42_sync_refuted_pf : exists d file c l,
  fragment_says d file 7 1 l /\ chunk_segment file 5000 (Some (1, td_dur d, td_size d, td_flags d)) = Ok [c] /\
  Forall is_sync l /\ l <> [] /\
  (forall d', exists l', fragment_says d' c 7 1 l' /\ Forall2 same_sample l' l /\ Forall (fun m => ~ is_sync m) l').
Proof.
  set (l := [mk_sample [11; 12] 9000 1000 false 0; mk_sample [21; 31; 32; 33; 41] 10000 1000 false 0]).
  exists ex_defaults, (encs (f_boxes ex_f3)), (encs (f_boxes (chunk_frag 7 1 l 9000))),
    [mk_media_sample [11; 12] 9000 1000 33554432 0; mk_media_sample [21; 31; 32; 33; 41] 10000 1000 0 0].
  split; [|split; [vm_compute; reflexivity|split; [repeat constructor|split; [discriminate|]]]].
  - exists ex_f3, 9000. split; [reflexivity|]. split; [exact ex_f3_ok|]. split; [reflexivity|]. split; [reflexivity|].
    split; [apply MediaSpec.DT1; [lia|reflexivity|lia]|]. split; [vm_compute; discriminate|]. split; [vm_compute; discriminate|]. split; [vm_compute; discriminate|vm_compute; reflexivity].
  - intros d'. exists (map as_media l). split; [|split; [repeat constructor|repeat constructor; discriminate]].
    assert (E : encs (f_boxes (chunk_frag 7 1 l 9000)) = enc (f_moof (chunk_frag 7 1 l 9000)) ++ create_mdat l) by (vm_compute; reflexivity).
    rewrite E. apply chunk_says; try lia; [discriminate|repeat split; reflexivity| |cbn; lia|cbn; lia].
    unfold l. repeat constructor; cbn; lia.
Qed.

(** *** C43 *)
(** Chunk i of segment n has been produced at this time. *)
Definition produced (c : config) (n : Z) (d : Q) (i : Z) : Q := (inject_Z (seg_end c n - c_seg_dur c) + inject_Z i * d)%Q.
Lemma send_paced : forall s d schedule i clock, forward schedule ->
  paced (fun i => s + inject_Z i * d - (1 # 10))%Q i clock schedule (send_loop s d i clock schedule).
Proof.
  intros s d schedule. induction schedule as [|(pause, late) schedule IH]; intros i clock F; cbn [send_loop paced]; [exact I|].
  inversion F as [|? ? (F1 & F2) F']; subst. cbn [fst snd] in *.
  destruct (Qltb 0 (s + inject_Z i * d - (1 # 10) - (clock + pause))) eqn:E.
  - apply Qltb_true in E. split; [lra|]. split; [lra|]. split; [right; lra|]. apply IH. exact F'.
  - apply Qltb_false in E. split; [lra|]. split; [lra|]. split; [left; lra|]. apply IH. exact F'.
Qed.
Lemma paced_ext : forall r r', (forall i, r i == r' i)%Q -> forall schedule i clock times, paced r i clock schedule times -> paced r' i clock schedule times.
Proof.
  intros r r' E schedule. induction schedule as [|(pause, late) schedule IH]; intros i clock times H; destruct times as [|t times]; cbn [paced] in *; try exact H.
  destruct H as (H1 & H2 & H3 & H4). rewrite <- E. split; [exact H1|]. split; [exact H2|]. split; [exact H3|]. apply IH. exact H4.
Qed.
(** With the time offset 0, or none and an availability start time of 0. *)
Lemma C43_paced_partial_pf : forall c n now sv d clock schedule, wf_cfg c ->
  c_timeoffset c = Some 0 \/ (c_timeoffset c = None /\ c_ast c = 0) ->
  segment_reply c now n = Ok (Serve sv) -> c_chunkdur c = Some d -> forward schedule ->
  exists times, send_times c (sv_time sv) clock schedule = Ok times /\
    paced (fun i => produced c n d i - (1 # 10))%Q 1 clock schedule times.
Proof.
  intros c n now sv d clock schedule W T R D F. unfold send_times. rewrite D. eexists. split; [reflexivity|].
  eapply paced_ext; [|apply send_paced; exact F].
  destruct (segment_reply_total c n now W) as [(_ & R')|(_ & r & R')]; rewrite R in R'; [|discriminate]. injection R' as ->.
  intros i. cbn beta. unfold produced.
  assert (E : sv_time (the_served c n (c_emsg_last c)) = seg_end c n - c_seg_dur c).
  { unfold the_served. cbn [sv_time]. unfold media_start, seg_end, media_time_at_ast. destruct T as [-> | (-> & ->)]; lia. }
  rewrite E. reflexivity.
Qed.
Example ex_paced :
  let c := match ex_cfg ["chunkdur_2"; "ato_inf"; "testpic"; "V1"; "100.m4s"]%string 600 with Ok c => c | Err _ => ex_c end in
  exists sv, wf_cfg c /\ c_timeoffset c = None /\ c_ast c = 0 /\ segment_reply c 600 100 = Ok (Serve sv) /\
  (exists t1 t2 t3, send_times c (sv_time sv) 600 [(0, 0); (1, 0); (5, 0)]%Q = Ok [t1; t2; t3] /\ t1 == 6019 # 10 /\ t2 == 6039 # 10 /\ t3 == 6089 # 10)%Q.
Proof.
  eexists. split; [constructor; [reflexivity|reflexivity|eexists; vm_compute; reflexivity|intros H; exfalso; apply H; reflexivity]|].
  split; [reflexivity|]. split; [reflexivity|]. split; [vm_compute; reflexivity|].
  eexists. eexists. eexists. split; [vm_compute; reflexivity|]. split; [reflexivity|]. split; reflexivity.
Qed.
(** With another availability start time everything is sent at once: segment
    100 of a session started at 6000 covers 6600 to 6606 and is sent at 6000. *)
Lemma C43_start_refuted_pf : exists c n sv times,
  ex_cfg ["start_6000"; "chunkdur_2"; "ato_inf"; "testpic"; "V1"; "100.m4s"]%string 6000 = Ok c /\
  segment_reply c 6000 n = Ok (Serve sv) /\
  send_times c (sv_time sv) 6000 [(0, 0); (0, 0); (0, 0)]%Q = Ok times /\
  Forall (fun t => t == 6000)%Q times /\ times <> [] /\
  produced c n 2 1 == 6602.
Proof.
  eexists. exists 100. eexists. eexists. split; [vm_compute; reflexivity|]. split; [vm_compute; reflexivity|].
  split; [vm_compute; reflexivity|]. split; [repeat constructor|]. split; [discriminate|vm_compute; reflexivity].
Qed.
(** The same function of chunker.py, which has no margin and reads the clock
    only if it seems to be too early: chunks are not sent too early there. *)
Lemma C43_simulate_pf : forall s d schedule i now clock, forward schedule -> (now <= clock)%Q ->
  paced (fun i => s + inject_Z i * d)%Q i clock schedule (simulate_loop s d i now clock schedule).
Proof.
  intros s d schedule. induction schedule as [|(pause, late) schedule IH]; intros i now clock F N; cbn [simulate_loop paced]; [exact I|].
  inversion F as [|? ? (F1 & F2) F']; subst. cbn [fst snd] in *.
  destruct (Qltb 0 (s + inject_Z i * d - now)) eqn:E.
  - destruct (Qltb 0 (s + inject_Z i * d - (clock + pause))) eqn:E2.
    + apply Qltb_true in E2. split; [lra|]. split; [lra|]. split; [right; lra|]. apply IH; [exact F'|lra].
    + apply Qltb_false in E2. split; [lra|]. split; [lra|]. split; [left; lra|]. apply IH; [exact F'|lra].
  - apply Qltb_false in E. split; [lra|]. split; [lra|]. split; [left; lra|]. apply IH; [exact F'|lra].
Qed.
Example ex_simulate : exists a b, simulate_loop 100 1 1 (201 # 2) (201 # 2) [(0, 0); (3, 0)]%Q = [a; b] /\ (a == 101)%Q /\ (b == 104)%Q.
Proof. eexists. eexists. split; [vm_compute; reflexivity|]. split; reflexivity. Qed.
