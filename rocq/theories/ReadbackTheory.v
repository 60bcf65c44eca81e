(** C78. *)
From Verif Require Import Base BaseProofs BytesModel BytesProofs BoxSpec ChunkModel LangModel LangTheory InitModel InitSpec InitTheory
  BoxesModel BoxesSpec BoxesProofs BoxesTheory ReadbackSpec ReadbackProofs.
From Coq Require Import Lia ZArith List.
Import ListNotations.
Open Scope Z_scope.

Lemma tk_zero : forall a b c d e, exists r, tkhd_p a b c d e = 0 :: r.
Proof. intros. eexists. reflexivity. Qed.
Lemma reader_tree : forall c m d v k, blen v = 2 -> 337 + blen (name_of c) + blen k < 4294967296 -> boxes_ok movie_containers reader_ok (file_tree c m d v k).
Proof.
  intros c m d v k Lv Lk. unfold file_tree.
  assert (N : forall (a b : bytes) P, bytes_eqb a b = false -> a = b -> P) by (intros a b P E X; subst; rewrite bytes_eqb_refl in E; discriminate).
  apply tree_ok; [apply mvhd_len|apply tkhd_len|apply mdhd_len; exact Lv|apply hdlr_len; apply handler_len|apply trex_len|exact Lk| | | | | | |];
    (split; [reflexivity|]); (split; [|split]); try (intros X; refine (N _ _ _ _ X); reflexivity).
  - intros _. destruct (tk_zero (mi_track m) d (volume_of c) (width_of c) (height_of c)) as (r & E). exists r. left. split; [exact E|]. rewrite tkhd_len. lia.
  - intros _. replace (version1 (mdhd_p (mi_timescale m) (mi_duration m) v)) with false by reflexivity. rewrite mdhd_len by exact Lv. lia.
  - intros _. rewrite trex_len. lia.
Qed.
Lemma tree_leaves : forall c mv tk md hd mi tx, movie_leaves [Leaf (bstr "ftyp") ftyp_p; tree c mv tk md hd mi tx] =
  (bstr "mvhd", mv) :: (let tr := [(bstr "tkhd", tk); (bstr "mdhd", md); (bstr "hdlr", hd); (bstr "minf", mi)] in
    match c with H264 _ _ _ _ _ _ _ => tr ++ [(bstr "trex", tx)] | _ => (bstr "trex", tx) :: tr end).
Proof. intros. destruct c; reflexivity. Qed.
Lemma field_mid : forall a x b o, o = blen a -> field o 4 (a ++ s32 x ++ b) = x mod 4294967296.
Proof.
  intros a x b o ->. unfold field. rewrite (bslice_mid a (s32 x) b 4) by (rewrite len32; reflexivity). apply s32_val.
Qed.

(** The server reads track id, time scale, handler and sample defaults as given. *)
Lemma C78_server_pf : forall c m out, codec_ok c -> init_file c m out -> 0 <= mi_track m < 4294967296 -> 0 <= mi_timescale m < 4294967296 ->
  exists st, init_filter out = Ok (out, st) /\ is_track_id st = Some (mi_track m) /\ is_timescale st = mi_timescale m /\
    is_handler st = Some (handler_of c) /\ is_trex st = Some (1, 0, 0, 0).
Proof.
  intros c m out Hc H Ht Hs. destruct (file_forms c m out Hc H) as (d & v & k & Lv & Lk & -> & _).
  pose proof (reader_tree c m d v k Lv Lk) as OK.
  destruct (C61_one_track_pf (file_tree c m d v k) (tkhd_p (mi_track m) d (volume_of c) (width_of c) (height_of c))
    (mdhd_p (mi_timescale m) (mi_duration m) v) (hdlr_p (handler_of c) (name_of c)) (trex_p (mi_track m)) OK) as (st & E & E1 & E2 & E3 & E4).
  - unfold file_tree. rewrite tree_leaves. destruct c; reflexivity.
  - unfold file_tree. rewrite tree_leaves. destruct c; reflexivity.
  - unfold file_tree. rewrite tree_leaves. destruct c; reflexivity.
  - unfold file_tree. rewrite tree_leaves. destruct c; reflexivity.
  - exists st. split; [exact E|]. split; [|split; [|split]].
    + rewrite E1. f_equal. unfold track_id. change (version1 (tkhd_p _ _ _ _ _)) with false. cbv iota. unfold tkhd_p.
      replace ((s32 7 ++ s32 0 ++ s32 0 ++ s32 (mi_track m) ++ s32 0) ++ s32 d ++ repeat 0 12 ++ be_bytes 2 (volume_of c) ++ [0; 0] ++ mat ++ s32 (Z.shiftl (width_of c) 16) ++ s32 (Z.shiftl (height_of c) 16))
        with ((s32 7 ++ s32 0 ++ s32 0) ++ s32 (mi_track m) ++ s32 0 ++ s32 d ++ repeat 0 12 ++ be_bytes 2 (volume_of c) ++ [0; 0] ++ mat ++ s32 (Z.shiftl (width_of c) 16) ++ s32 (Z.shiftl (height_of c) 16))
        by (rewrite <- !app_assoc; reflexivity).
      rewrite field_mid by reflexivity. apply Z.mod_small. exact Ht.
    + rewrite E2 by reflexivity. unfold media_timescale. change (version1 (mdhd_p _ _ _)) with false. cbv iota. unfold mdhd_p.
      replace ((s32 0 ++ s32 0 ++ s32 0 ++ s32 (mi_timescale m)) ++ s32 (mi_duration m) ++ v ++ [0; 0])
        with ((s32 0 ++ s32 0 ++ s32 0) ++ s32 (mi_timescale m) ++ s32 (mi_duration m) ++ v ++ [0; 0]) by (rewrite <- !app_assoc; reflexivity).
      rewrite field_mid by reflexivity. apply Z.mod_small. exact Hs.
    + rewrite E3. f_equal. destruct c; reflexivity.
    + rewrite E4. reflexivity.
Qed.

Lemma header_tree : forall c m d v k, blen v = 2 -> 337 + blen (name_of c) + blen k < 4294967296 -> boxes_ok movie_containers header_ok (file_tree c m d v k).
Proof.
  intros c m d v k Lv Lk. unfold file_tree.
  apply tree_ok; [apply mvhd_len|apply tkhd_len|apply mdhd_len; exact Lv|apply hdlr_len; apply handler_len|apply trex_len|exact Lk| | | | | | |];
    (split; [reflexivity|]); try exact I.
  - change (duration_at (bstr "mvhd") (mvhd_p d (mi_track m + 1))) with (Some (16, 4)). cbv iota. rewrite mvhd_len. lia.
  - change (duration_at (bstr "tkhd") (tkhd_p _ _ _ _ _)) with (Some (20, 4)). cbv iota. rewrite tkhd_len. lia.
  - change (duration_at (bstr "mdhd") (mdhd_p _ _ _)) with (Some (16, 4)). cbv iota. rewrite mdhd_len by exact Lv. lia.
Qed.
Lemma zeroed : forall a d b o, o = blen a -> blen (a ++ s32 0 ++ b) = blen (a ++ s32 d ++ b) /\ btake o (a ++ s32 0 ++ b) = btake o (a ++ s32 d ++ b) /\
  Forall (fun x => x = 0) (bslice o (o + 4) (a ++ s32 0 ++ b)) /\ bdrop (o + 4) (a ++ s32 0 ++ b) = bdrop (o + 4) (a ++ s32 d ++ b).
Proof.
  intros a d b o ->. split; [rewrite !blen_app, !len32; reflexivity|]. split; [rewrite !btake_len; reflexivity|]. split.
  - rewrite (bslice_mid a (s32 0) b 4) by reflexivity. repeat constructor.
  - replace (blen a + 4) with (blen (a ++ s32 0)) at 1 by (rewrite blen_app, len32; reflexivity).
    replace (blen a + 4) with (blen (a ++ s32 d)) by (rewrite blen_app, len32; reflexivity).
    rewrite !app_assoc, !bdrop_len. reflexivity.
Qed.
(** What the server sends for live is the init segment written without duration. *)
Lemma C78_live_pf : forall c m out, codec_ok c -> init_file c m out ->
  exists out0, init_file c (no_duration m) out0 /\ init_live out = Ok out0.
Proof.
  intros c m out Hc H. destruct (file_forms c m out Hc H) as (d & v & k & Lv & Lk & -> & H0).
  exists (encs (file_tree c (no_duration m) 0 v k)). split; [exact H0|].
  pose proof (header_tree c m d v k Lv Lk) as OK. destruct (C37_live_pf _ OK) as (l & E & L & _). rewrite E. f_equal. f_equal.
  apply (C37_determined_pf (file_tree c m d v k)); [exact OK|exact L|].
  unfold live_init, file_tree. constructor; [reflexivity|]. constructor; [|constructor]. unfold live_top, tree. cbn [btype]. rewrite bytes_eqb_refl.
  assert (Same : forall t p, duration_at t p = None -> live_box (Leaf t p) (Leaf t p)).
  { intros t p X. constructor. unfold live_payload. rewrite X. reflexivity. }
  assert (Mv : live_box (Leaf (bstr "mvhd") (mvhd_p d (mi_track m + 1))) (Leaf (bstr "mvhd") (mvhd_p 0 (mi_track m + 1)))).
  { constructor. unfold live_payload. change (duration_at (bstr "mvhd") (mvhd_p d (mi_track m + 1))) with (Some (16, 4)). cbv iota. apply zeroed. reflexivity. }
  assert (Tk : live_box (Leaf (bstr "tkhd") (tkhd_p (mi_track m) d (volume_of c) (width_of c) (height_of c))) (Leaf (bstr "tkhd") (tkhd_p (mi_track m) 0 (volume_of c) (width_of c) (height_of c)))).
  { constructor. unfold live_payload. change (duration_at (bstr "tkhd") (tkhd_p (mi_track m) d (volume_of c) (width_of c) (height_of c))) with (Some (20, 4)). cbv iota. apply zeroed. reflexivity. }
  assert (Md : live_box (Leaf (bstr "mdhd") (mdhd_p (mi_timescale m) (mi_duration m) v)) (Leaf (bstr "mdhd") (mdhd_p (mi_timescale m) 0 v))).
  { constructor. unfold live_payload. change (duration_at (bstr "mdhd") (mdhd_p (mi_timescale m) (mi_duration m) v)) with (Some (16, 4)). cbv iota. apply zeroed. reflexivity. }
  constructor. constructor; [exact Mv|].
  assert (Tr : live_box (Node (bstr "trak") [Leaf (bstr "tkhd") (tkhd_p (mi_track m) d (volume_of c) (width_of c) (height_of c));
      Node (bstr "mdia") [Leaf (bstr "mdhd") (mdhd_p (mi_timescale m) (mi_duration m) v); Leaf (bstr "hdlr") (hdlr_p (handler_of c) (name_of c)); Leaf (bstr "minf") k]])
    (Node (bstr "trak") [Leaf (bstr "tkhd") (tkhd_p (mi_track m) 0 (volume_of c) (width_of c) (height_of c));
      Node (bstr "mdia") [Leaf (bstr "mdhd") (mdhd_p (mi_timescale m) 0 v); Leaf (bstr "hdlr") (hdlr_p (handler_of c) (name_of c)); Leaf (bstr "minf") k]])).
  { constructor. constructor; [exact Tk|]. constructor; [|constructor]. constructor. constructor; [exact Md|]. constructor; [apply Same; reflexivity|].
    constructor; [apply Same; reflexivity|constructor]. }
  assert (Ex : live_box (Node (bstr "mvex") [Leaf (bstr "trex") (trex_p (mi_track m))]) (Node (bstr "mvex") [Leaf (bstr "trex") (trex_p (mi_track m))])).
  { constructor. constructor; [apply Same; reflexivity|constructor]. }
  destruct c; (constructor; [first [exact Tr|exact Ex]|]); (constructor; [first [exact Tr|exact Ex]|]); constructor.
Qed.

Definition ex_avc : codec := H264 640 360 100 0 30 [103; 100; 0; 30] [104; 235].
Definition ex_out := Eval vm_compute in
  match moov_of ex_avc ex_media, serialize create_ftyp with
  | Ok b, Ok f => match serialize b with Ok o => Ok (f ++ o) | Err e => Err e end
  | _, _ => Err ""%string
  end.
Lemma ex_init : exists out, ex_out = Ok out /\ init_file ex_avc ex_media out.
Proof.
  eexists. split; [vm_compute; reflexivity|]. eexists. eexists. eexists. split; [vm_compute; reflexivity|]. split; [vm_compute; reflexivity|].
  split; [vm_compute; reflexivity|]. split; [vm_compute; reflexivity|reflexivity].
Qed.
Example C78_server_case : codec_ok ex_avc /\ (exists out, init_file ex_avc ex_media out) /\ 0 <= mi_track ex_media < 4294967296 /\
  0 <= mi_timescale ex_media < 4294967296.
Proof. split; [exact I|]. split; [destruct ex_init as (out & _ & H); exists out; exact H|]. split; cbn; lia. Qed.
Definition ex_ac3 : codec := AC3 "ec+3" (mk_audio_info 6 16 48000 (be32 11 ++ bstr "dec3" ++ [1; 2; 3]) "swe").
Example C78_live_case : codec_ok ex_ac3 /\ exists out, init_file ex_ac3 ex_media out.
Proof.
  split.
  - refine (complete_leaf (bstr "dec3") [1; 2; 3] [] eq_refl _ _ complete_nil); [|reflexivity].
    intros n X. unfold is_parent, parents in X. cbn in X. repeat (destruct X as [X|X]; [discriminate|]). exact X.
  - eexists. eexists. eexists. eexists. split; [vm_compute; reflexivity|]. split; [vm_compute; reflexivity|].
    split; [vm_compute; reflexivity|]. split; [vm_compute; reflexivity|reflexivity].
Qed.
