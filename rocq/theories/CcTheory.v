(** Theorems about inserting closed captions (C51). *)
From Coq Require Import ZifyBool ZifyNat Permutation.
From Verif Require Import Base BaseProofs BytesModel BytesProofs BoxSpec Mp4Model Mp4Proofs ChunkModel ChunkSpec ChunkParse ChunkTheory.
From Verif Require Import CcModel CcSpec CcProofs CcProofs2 CcProofs3 CcProofs4.
From Verif Require MediaSpec.
Open Scope Z_scope.

(** *** The filter on one segment *)
Lemma C51_filter_partial_pf : forall f d file nr track l mid payload post caps ts time field,
  fragment_is f d file nr track l -> plain_run f -> one_mdat d f mid payload post ->
  Forall (fun m => video_sample (ms_data m)) l -> MediaSpec.decode_time (f_tfdt f) time ->
  0 < ts -> field = 1 \/ field = 2 -> Forall (fun c => (List.length (snd c) <= 31)%nat) caps ->
  8 + blen payload + added field ts caps l < 4294967296 ->
  exists f' l' out x y, cc_filter file caps ts time field = Ok out /\
    fragment_is f' d out nr track l' /\ same_around f f' /\
    f_post f' = mid ++ Leaf (bstr "mdat") (x ++ List.concat (map ms_data l') ++ y) :: post /\
    payload = x ++ List.concat (map ms_data l) ++ y /\
    Forall2 (captioned field ts caps) l l' /\
    Permutation (flat_map (captions_of ts caps) l) (filter (shown ts time (time + seg_dur l)) caps).
Proof.
  intros f d file nr track l mid payload post caps ts time field F R M V T TS FI W S.
  assert (E : file = encs (f_boxes f)) by (destruct F as (? & E & _); exact E). subst file.
  destruct (inserted caps ts time field f d nr track l mid payload post FI TS W F T R M V S) as (f' & l' & x & y & A1 & A2 & A3).
  exists f', l', (encs (f_boxes f')), x, y. split; [exact A1|]. split; [exact A2|exact A3].
Qed.

(** *** One segment of the video *)
Lemma window_shown : forall ts a n c, 0 < ts ->
  in_window (inject_Z a / inject_Z ts)%Q (inject_Z a / inject_Z ts + inject_Z n / inject_Z ts)%Q c = shown ts a (a + n) c.
Proof.
  intros ts a n c T. unfold in_window, shown, Qltb. f_equal. f_equal.
  assert (E : (inject_Z a / inject_Z ts + inject_Z n / inject_Z ts == inject_Z (a + n) / inject_Z ts)%Q).
  { rewrite inject_Z_plus. unfold Qdiv. ring. }
  destruct (Qle_bool (inject_Z a / inject_Z ts + inject_Z n / inject_Z ts) (fst c)) eqn:A;
    destruct (Qle_bool (inject_Z (a + n) / inject_Z ts) (fst c)) eqn:B; try reflexivity; exfalso.
  - apply Qle_bool_iff in A. rewrite E in A. apply Qle_bool_iff in A. congruence.
  - apply Qle_bool_iff in B. rewrite <- E in B. apply Qle_bool_iff in B. congruence.
Qed.
Lemma filter_filter : forall A (p q : A -> bool) l, (forall x, p x = true -> q x = true) -> filter p (filter q l) = filter p l.
Proof.
  intros A p q l H. induction l as [|x l IH]; [reflexivity|]. cbn [filter]. destruct (q x) eqn:Q; destruct (p x) eqn:P; cbn [filter]; rewrite ?P, ?IH; try reflexivity.
  rewrite (H x P) in Q. discriminate.
Qed.
Lemma shown_within : forall ts a b y z c, 0 < ts -> a <= b -> y <= z -> shown ts b y c = true -> shown ts a z c = true.
Proof.
  intros ts a b y z c T L1 L2 H. unfold shown in *. apply andb_prop in H. destruct H as [H1 H2].
  assert (X := tick_le ts a b T L1). assert (Y := tick_le ts y z T L2). apply andb_true_intro. split.
  - apply Qle_bool_iff in H1. apply Qle_bool_iff. eapply Qle_trans; eauto.
  - destruct (Qle_bool (inject_Z z / inject_Z ts) (fst c)) eqn:E; [|reflexivity]. apply Qle_bool_iff in E.
    assert (E' : (inject_Z y / inject_Z ts <= fst c)%Q) by (eapply Qle_trans; eauto). apply Qle_bool_iff in E'. rewrite E' in H2. discriminate.
Qed.
Lemma consecutive_in : forall l t m, consecutive t l -> Forall (fun m => 0 <= ms_dur m) l -> In m l -> t <= ms_time m /\ ms_time m + ms_dur m <= t + seg_dur l.
Proof.
  induction l as [|a l IH]; intros t m C D I; [destruct I|]. destruct C as [<- C]. inversion D as [|? ? D1 D']; subst.
  assert (N := seg_dur_nonneg l D'). cbn [seg_dur fold_right]. fold (seg_dur l). destruct I as [->|I]; [lia|]. destruct (IH _ _ C D' I). lia.
Qed.
Lemma added_ext : forall field ts c1 c2 l, (forall m, In m l -> captions_of ts c1 m = captions_of ts c2 m) -> added field ts c1 l = added field ts c2 l.
Proof.
  intros field ts c1 c2 l H. induction l as [|m l IH]; [reflexivity|]. cbn [added fold_right]. fold (added field ts c1 l) (added field ts c2 l).
  rewrite (H m) by (left; reflexivity). rewrite IH; [reflexivity|]. intros; apply H; right; assumption.
Qed.

(** The segment as it is written if a caption lies in it: [scc] are all the
    captions of the video. *)
Lemma C51_segment_partial_pf : forall f d file nr track l mid payload post scc ts time field,
  fragment_is f d file nr track l -> plain_run f -> one_mdat d f mid payload post ->
  Forall (fun m => video_sample (ms_data m)) l -> MediaSpec.decode_time (f_tfdt f) time ->
  0 < ts -> field = 1 \/ field = 2 -> Forall (fun c => (List.length (snd c) <= 31)%nat) scc ->
  8 + blen payload + added field ts scc l < 4294967296 ->
  (filter (shown ts time (time + seg_dur l)) scc = [] /\ insert_segment file scc ts time (seg_dur l) field = Ok None) \/
  exists f' l' out x y, insert_segment file scc ts time (seg_dur l) field = Ok (Some out) /\
    fragment_is f' d out nr track l' /\ same_around f f' /\
    f_post f' = mid ++ Leaf (bstr "mdat") (x ++ List.concat (map ms_data l') ++ y) :: post /\
    payload = x ++ List.concat (map ms_data l) ++ y /\
    Forall2 (captioned field ts scc) l l' /\
    Permutation (flat_map (captions_of ts scc) l) (filter (shown ts time (time + seg_dur l)) scc).
Proof.
  intros f d file nr track l mid payload post scc ts time field F R M V T TS FI W S.
  assert (E : file = encs (f_boxes f)) by (destruct F as (? & E & _); exact E). subst file.
  assert (CO := proj2 (proj2 (proj2 (rows time f d nr track l F T R)))).
  assert (DU := durs time f d nr track l F T R).
  set (caps := filter (shown ts time (time + seg_dur l)) scc).
  assert (SAME : forall m, In m l -> captions_of ts caps m = captions_of ts scc m).
  { intros m I. destruct (consecutive_in l time m CO DU I). unfold captions_of, caps. apply filter_filter.
    intros c H'. eapply shown_within; eauto. }
  assert (G : get_scc_data scc (inject_Z time / inject_Z ts) (inject_Z time / inject_Z ts + inject_Z (seg_dur l) / inject_Z ts) = caps).
  { unfold get_scc_data, caps. apply filter_ext. intros c. apply window_shown. exact TS. }
  assert (W' : Forall (fun c => (List.length (snd c) <= 31)%nat) caps).
  { rewrite Forall_forall in W |- *. intros c I. apply W. apply filter_In in I. tauto. }
  assert (S' : 8 + blen payload + added field ts caps l < 4294967296) by (rewrite (added_ext field ts caps scc l SAME); exact S).
  unfold insert_segment, seconds. replace (ts =? 0) with false by lia. cbn [bind]. rewrite G.
  destruct (inserted caps ts time field f d nr track l mid payload post FI TS W' F T R M V S') as (f' & l' & x & y & A1 & A2 & A3 & A4 & A5 & A6 & A7).
  assert (CE : caps = filter (shown ts time (time + seg_dur l)) scc) by reflexivity. clearbody caps.
  assert (CAP : Forall2 (captioned field ts scc) l l').
  { clear -SAME A6. induction A6 as [|m m1 l l' (B1 & B2 & B3 & B4 & B5) A6 IH]; [constructor|]. constructor.
    - repeat split; auto. rewrite <- (SAME m) by (left; reflexivity). exact B5.
    - apply IH. intros; apply SAME; right; assumption. }
  destruct caps as [|c0 r0].
  - left. split; reflexivity.
  - right. exists f', l', (encs (f_boxes f')), x, y. rewrite A1. cbn [bind]. repeat (split; [first [reflexivity|assumption]|]).
    rewrite CE. apply once; assumption.
Qed.

(** A segment with two samples of 1000 ticks from 9000 on: an access unit
    delimiter and a slice, and a slice. *)
Definition cc_entry (size dur : option Z) : entry := mk_entry dur size None None.
Definition cc_media : bytes := [0; 0; 0; 2; 9; 240; 0; 0; 0; 3; 101; 1; 2; 0; 0; 0; 2; 65; 3].
Definition cc_frag (fl : Z) (h : head) (first : option Z) (l : list entry) : frag :=
  mk_frag [Leaf (bstr "styp") (bstr "msdh")] [] (be32 0) 7 [] [] h [] (1 :: [0; 0; 0] ++ be64 9000) [] (ex_run 0 fl first l) [] [] [Leaf (bstr "mdat") cc_media].
Ltac cc_tac := match goal with |- frag_ok ?x => unfold x, cc_frag end; 
  match goal with |- frag_ok (mk_frag _ _ _ _ _ _ _ _ _ _ _ _ _ _) => idtac end;
  unfold frag_ok; split; [|split; [|split; [reflexivity|split; [cbn; lia|split]]]];
  [ unfold f_boxes; cbn [f_pre f_post app boxes_ok];
    repeat match goal with
    | |- _ /\ _ => split
    | |- True => exact I
    | |- box_ok _ _ (f_moof _) => unfold f_moof; apply box_ok_node; cbn [f_a1 f_a2 f_a3 app boxes_ok f_vf f_nr]
    | |- box_ok _ _ (f_traf _) => unfold f_traf; apply box_ok_node; cbn [f_k1 f_k2 f_k3 f_k4 app boxes_ok f_head f_tfdt f_run]
    | |- box_ok _ _ (Leaf _ _) => cbn [box_ok]
    | |- ~ In _ _ => not_in
    | |- In _ _ => cbn; tauto
    | |- any_payload _ _ => exact I
    | |- _ < _ => vm_compute; reflexivity
    | |- _ = _ => vm_compute; reflexivity
    end
  | cbn [f_pre f_a1 f_a2 f_k1 f_k2 f_k3 f_k4 f_a3 f_post app]; repeat constructor; try (cbn [inert]; not_in); vm_compute; reflexivity
  | unfold head_ok; cbn; repeat (split; [first [exact I | reflexivity | lia]|]); first [reflexivity | exact I]
  | unfold run_ok; cbn; repeat (split; [first [exact I | reflexivity | lia]|]); repeat constructor; cbn; try lia; reflexivity ].
Ltac cc_is ok := 
  exists 9000; split; [reflexivity|]; split; [exact ok|]; split; [reflexivity|]; split; [reflexivity|];
  split; [apply MediaSpec.DT1; [lia|reflexivity|lia]|]; split; [vm_compute; discriminate|]; split; [vm_compute; discriminate|]; split; [vm_compute; discriminate|vm_compute; reflexivity].
Definition cc_f1 : frag := cc_frag 769 (ex_head (Some 500) None) None [cc_entry (Some 13) (Some 1000); cc_entry (Some 6) (Some 1000)].
Lemma cc_f1_ok : frag_ok cc_f1.
Proof. cc_tac. Qed.
Definition cc_l1 : list media_sample :=
  [mk_media_sample [0; 0; 0; 2; 9; 240; 0; 0; 0; 3; 101; 1; 2] 9000 1000 0 0; mk_media_sample [0; 0; 0; 2; 65; 3] 10000 1000 0 0].
Lemma cc_f1_is : fragment_is cc_f1 ex_defaults (encs (f_boxes cc_f1)) 7 1 cc_l1.
Proof. cc_is cc_f1_ok. Qed.
Lemma cc_l1_video : Forall (fun m => video_sample (ms_data m)) cc_l1.
Proof.
  constructor; [exists [[9; 240]; [101; 1; 2]]|constructor; [exists [[65; 3]]|constructor]];
    (split; [repeat constructor; (try discriminate); vm_compute; reflexivity|reflexivity]).
Qed.
(** Captions at 9.0 s and 9.5 s (first sample), 10.2 s (second), 11 s (not in
    the segment), with time scale 1000. *)
Definition cc_caps : list cc := [(9%Q, [38052; 5215]); ((95 # 10)%Q, [32]); ((102 # 10)%Q, []); (11%Q, [1])].
Example ex_captions_hyps : plain_run cc_f1 /\ one_mdat ex_defaults cc_f1 [] cc_media [] /\ MediaSpec.decode_time (f_tfdt cc_f1) 9000 /\
  Forall (fun c => (List.length (snd c) <= 31)%nat) cc_caps /\ 8 + blen cc_media + added 1 1000 cc_caps cc_l1 < 4294967296 /\
  filter (shown 1000 9000 (9000 + seg_dur cc_l1)) cc_caps = firstn 3 cc_caps.
Proof.
  split; [|split; [|split; [|split; [|split]]]].
  - split; [reflexivity|]. split; [discriminate|]. split; [reflexivity|]. repeat constructor; discriminate.
  - split; [reflexivity|]. split; [repeat constructor; unfold not_mdat; cbn; discriminate|]. split; vm_compute; discriminate.
  - apply MediaSpec.DT1; [lia|reflexivity|lia].
  - repeat constructor; cbn; lia.
  - vm_compute. reflexivity.
  - vm_compute. reflexivity.
Qed.
Example ex_captions : exists out, insert_segment (encs (f_boxes cc_f1)) cc_caps 1000 9000 2000 1 = Ok (Some out) /\
  bdrop (blen out - 109) out = be32 1000 ++ be32 60 ++ be32 1000 ++ be32 25 ++ be32 93 ++ bstr "mdat" ++
    [0; 0; 0; 2; 9; 240] ++ [0; 0; 0; 21; 102; 4; 17; 181; 0; 49; 71; 65; 57; 52; 3; 194; 255; 252; 148; 164; 252; 20; 95; 255; 128] ++
    [0; 0; 0; 18; 102; 4; 14; 181; 0; 49; 71; 65; 57; 52; 3; 193; 255; 252; 0; 32; 255; 128] ++ [0; 0; 0; 3; 101; 1; 2] ++
    [0; 0; 0; 15; 102; 4; 11; 181; 0; 49; 71; 65; 57; 52; 3; 192; 255; 255; 128] ++ [0; 0; 0; 2; 65; 3].
Proof. eexists. split; [vm_compute; reflexivity|vm_compute; reflexivity]. Qed.

(** *** The words of a line of the scc file *)
Lemma chunks_all : forall A n k (l : list A), (0 < n)%nat -> (List.length l <= k)%nat ->
  List.concat (chunks_loop k n l) = l /\ Forall (fun c => (0 < List.length c <= n)%nat) (chunks_loop k n l).
Proof.
  intros A n k. induction k as [|k IH]; intros l N L.
  - destruct l; [|cbn in L; lia]. split; constructor.
  - destruct l as [|a l]; [split; constructor|]. cbn [chunks_loop].
    assert (L' : (List.length (skipn n (a :: l)) <= k)%nat) by (rewrite skipn_length; cbn [List.length] in *; lia).
    destruct (IH _ N L') as [I1 I2]. split.
    + cbn [List.concat]. rewrite I1. apply firstn_skipn.
    + constructor; [|exact I2]. rewrite firstn_length. cbn [List.length]. lia.
Qed.
(** The words are all there, in order, at most 31 in a caption, which all have
    the time of the line. *)
Lemma C51_words_pf : forall t words,
  List.concat (map snd (line_captions t words)) = words /\
  Forall (fun c => fst c = t /\ (0 < List.length (snd c) <= 31)%nat) (line_captions t words).
Proof.
  intros t words. destruct (chunks_all Z 31 (List.length words) words ltac:(lia) ltac:(lia)) as [C1 C2]. unfold line_captions.
  rewrite map_map. cbn [snd]. rewrite map_id. split; [exact C1|]. rewrite Forall_map. cbn [fst snd]. revert C2. apply Forall_impl. auto.
Qed.
Example ex_words : map (fun c => List.length (snd c)) (line_captions 1%Q (repeat 5 70)) = [31; 31; 8]%nat.
Proof. reflexivity. Qed.

(** *** Where the claim is false *)
(** Samples with the default duration get no caption. *)
Definition cc_f2 : frag := cc_frag 513 (ex_head (Some 1000) None) None [cc_entry (Some 13) None; cc_entry (Some 6) None].
Lemma cc_f2_ok : frag_ok cc_f2.
Proof. cc_tac. Qed.
Lemma C51_default_duration_refuted_pf : exists f d file nr track l payload caps ts time,
  fragment_is f d file nr track l /\ one_mdat d f [] payload [] /\ Forall (fun m => video_sample (ms_data m)) l /\
  MediaSpec.decode_time (f_tfdt f) time /\ filter (shown ts time (time + seg_dur l)) caps <> [] /\
  insert_segment file caps ts time (seg_dur l) 1 = Ok (Some file).
Proof.
  exists cc_f2, ex_defaults, (encs (f_boxes cc_f2)), 7, 1, cc_l1, cc_media, cc_caps, 1000, 9000.
  split; [cc_is cc_f2_ok|]. split; [|split; [exact cc_l1_video|split; [|split; [vm_compute; discriminate|vm_compute; reflexivity]]]].
  - split; [reflexivity|]. split; [repeat constructor; unfold not_mdat; cbn; discriminate|]. split; vm_compute; discriminate.
  - apply MediaSpec.DT1; [lia|reflexivity|lia].
Qed.
(** The flags of the first sample are lost, so that the media data is 4 bytes
    earlier than the run says; here no NAL unit is found at the place. *)
Definition cc_f3 : frag := cc_frag 773 (ex_head (Some 1000) None) (Some 33554432) [cc_entry (Some 13) (Some 1000); cc_entry (Some 6) (Some 1000)].
Lemma cc_f3_ok : frag_ok cc_f3.
Proof. cc_tac. Qed.
Lemma C51_first_flags_refuted_pf : exists f d file nr track l payload caps ts time,
  fragment_is f d file nr track l /\ one_mdat d f [] payload [] /\ Forall (fun m => video_sample (ms_data m)) l /\
  MediaSpec.decode_time (f_tfdt f) time /\
  insert_segment file caps ts time (seg_dur l) 1 = Err "struct.error".
Proof.
  exists cc_f3, ex_defaults, (encs (f_boxes cc_f3)), 7, 1,
    [mk_media_sample [0; 0; 0; 2; 9; 240; 0; 0; 0; 3; 101; 1; 2] 9000 1000 33554432 0; mk_media_sample [0; 0; 0; 2; 65; 3] 10000 1000 0 0],
    cc_media, cc_caps, 1000, 9000.
  split; [cc_is cc_f3_ok|]. split; [|split; [|split; [|vm_compute; reflexivity]]].
  - split; [reflexivity|]. split; [repeat constructor; unfold not_mdat; cbn; discriminate|]. split; vm_compute; discriminate.
  - constructor; [exists [[9; 240]; [101; 1; 2]]|constructor; [exists [[65; 3]]|constructor]];
      (split; [repeat constructor; (try discriminate); vm_compute; reflexivity|reflexivity]).
  - apply MediaSpec.DT1; [lia|reflexivity|lia].
Qed.

(** Without sizes in the run the samples are read with the old sizes. *)
Definition cc_f4 : frag :=
  mk_frag [Leaf (bstr "styp") (bstr "msdh")] [] (be32 0) 7 [] [] (mk_head 0 131088 1 None None None (Some 6) None) [] (1 :: [0; 0; 0] ++ be64 9000) []
    (ex_run 0 257 None [cc_entry None (Some 1000); cc_entry None (Some 1000)]) [] [] [Leaf (bstr "mdat") [0; 0; 0; 2; 101; 1; 0; 0; 0; 2; 65; 3]].
Lemma cc_f4_ok : frag_ok cc_f4.
Proof. cc_tac. Qed.
Definition cc_f4' : frag :=
  mk_frag [Leaf (bstr "styp") (bstr "msdh")] [] (be32 0) 7 [] [] (mk_head 0 131088 1 None None None (Some 6) None) [] (1 :: [0; 0; 0] ++ be64 9000) []
    (ex_run 0 257 None [cc_entry None (Some 1000); cc_entry None (Some 1000)]) [] []
    [Leaf (bstr "mdat") ([0; 0; 0; 18; 102; 4; 14; 181; 0; 49; 71; 65; 57; 52; 3; 193; 255; 252; 0; 32; 255; 128] ++ [0; 0; 0; 2; 101; 1; 0; 0; 0; 2; 65; 3])].
Lemma cc_f4'_ok : frag_ok cc_f4'.
Proof. cc_tac. Qed.
Lemma C51_default_size_refuted_pf : exists f d file nr track l payload caps ts time out f' l',
  fragment_is f d file nr track l /\ one_mdat d f [] payload [] /\ Forall (fun m => video_sample (ms_data m)) l /\
  MediaSpec.decode_time (f_tfdt f) time /\
  insert_segment file caps ts time (seg_dur l) 1 = Ok (Some out) /\
  fragment_is f' d out nr track l' /\
  map ms_data l = [[0; 0; 0; 2; 101; 1]; [0; 0; 0; 2; 65; 3]] /\
  map ms_data l' = [[0; 0; 0; 18; 102; 4]; [14; 181; 0; 49; 71; 65]].
Proof.
  exists cc_f4, ex_defaults, (encs (f_boxes cc_f4)), 7, 1,
    [mk_media_sample [0; 0; 0; 2; 101; 1] 9000 1000 0 0; mk_media_sample [0; 0; 0; 2; 65; 3] 10000 1000 0 0],
    [0; 0; 0; 2; 101; 1; 0; 0; 0; 2; 65; 3], [(9%Q, [32])], 1000, 9000, (encs (f_boxes cc_f4')), cc_f4',
    [mk_media_sample [0; 0; 0; 18; 102; 4] 9000 1000 0 0; mk_media_sample [14; 181; 0; 49; 71; 65] 10000 1000 0 0].
  split; [cc_is cc_f4_ok|]. split; [|split; [|split; [|split; [vm_compute; reflexivity|]]]].
  - split; [reflexivity|]. split; [repeat constructor; unfold not_mdat; cbn; discriminate|]. split; vm_compute; discriminate.
  - constructor; [exists [[101; 1]]|constructor; [exists [[65; 3]]|constructor]];
      (split; [repeat constructor; (try discriminate); vm_compute; reflexivity|reflexivity]).
  - apply MediaSpec.DT1; [lia|reflexivity|lia].
  - split; [cc_is cc_f4'_ok|]. split; reflexivity.
Qed.
(** In a segment with two fragments a caption of the first one is there three
    times. *)
Definition cc_f5 : frag :=
  mk_frag [] [] (be32 0) 8 [] [] (ex_head (Some 500) None) [] (1 :: [0; 0; 0] ++ be64 11000) []
    (ex_run 0 769 None [cc_entry (Some 13) (Some 1000); cc_entry (Some 6) (Some 1000)]) [] [] [Leaf (bstr "mdat") cc_media].
Lemma cc_f5_ok : frag_ok cc_f5.
Proof. cc_tac. Qed.
Lemma C51_two_fragments_refuted_pf : exists f g d file1 file2 nr track l1 l2 p1 p2 c ts t1 t2 out,
  fragment_is f d file1 nr track l1 /\ plain_run f /\ one_mdat d f [] p1 [] /\ Forall (fun m => video_sample (ms_data m)) l1 /\ MediaSpec.decode_time (f_tfdt f) t1 /\
  fragment_is g d file2 (nr + 1) track l2 /\ plain_run g /\ one_mdat d g [] p2 [] /\ Forall (fun m => video_sample (ms_data m)) l2 /\ MediaSpec.decode_time (f_tfdt g) t2 /\
  t2 = t1 + seg_dur l1 /\ flat_map (captions_of ts [c]) (l1 ++ l2) = [c] /\
  insert_segment (file1 ++ file2) [c] ts t1 (seg_dur (l1 ++ l2)) 1 = Ok (Some out) /\
  blen out = blen (file1 ++ file2) + 3 * blen (caption_bytes 1 [c]).
Proof.
  exists cc_f1, cc_f5, ex_defaults, (encs (f_boxes cc_f1)), (encs (f_boxes cc_f5)), 7, 1, cc_l1,
    [mk_media_sample [0; 0; 0; 2; 9; 240; 0; 0; 0; 3; 101; 1; 2] 11000 1000 0 0; mk_media_sample [0; 0; 0; 2; 65; 3] 12000 1000 0 0],
    cc_media, cc_media, (9%Q, [32]), 1000, 9000, 11000. eexists.
  split; [exact cc_f1_is|]. split; [split; [reflexivity|]; split; [discriminate|]; split; [reflexivity|]; repeat constructor; discriminate|].
  split; [split; [reflexivity|]; split; [repeat constructor; unfold not_mdat; cbn; discriminate|]; split; vm_compute; discriminate|].
  split; [exact cc_l1_video|]. split; [apply MediaSpec.DT1; [lia|reflexivity|lia]|].
  split.
  { exists 11000. split; [reflexivity|]. split; [exact cc_f5_ok|]. split; [reflexivity|]. split; [reflexivity|].
    split; [apply MediaSpec.DT1; [lia|reflexivity|lia]|]. split; [vm_compute; discriminate|]. split; [vm_compute; discriminate|]. split; [vm_compute; discriminate|vm_compute; reflexivity]. }
  split; [split; [reflexivity|]; split; [discriminate|]; split; [reflexivity|]; repeat constructor; discriminate|].
  split; [split; [reflexivity|]; split; [repeat constructor; unfold not_mdat; cbn; discriminate|]; split; vm_compute; discriminate|].
  split.
  { constructor; [exists [[9; 240]; [101; 1; 2]]|constructor; [exists [[65; 3]]|constructor]];
      (split; [repeat constructor; (try discriminate); vm_compute; reflexivity|reflexivity]). }
  split; [apply MediaSpec.DT1; [lia|reflexivity|lia]|]. split; [reflexivity|]. split; [vm_compute; reflexivity|].
  split; [vm_compute; reflexivity|vm_compute; reflexivity].
Qed.
