(** Lemmas for C78. *)
From Verif Require Import Base BaseProofs BytesModel BytesProofs BoxSpec ChunkModel LangModel LangTheory InitModel InitSpec InitTheory
  BoxesModel BoxesSpec BoxesProofs BoxesTheory ReadbackSpec.
From Coq Require Import Lia ZArith List.
Import ListNotations.
Open Scope Z_scope.

(** ** Boxes as trees *)
Lemma leaf_tree : forall n t l p, blen t = 4 -> join_bytes l = Ok p -> n = 8 + blen p -> n < 4294967296 ->
  join_bytes (u32 n :: fourcc t :: l) = Ok (enc (Leaf t p)).
Proof.
  intros n t l p Ht E Hn Hb. cbn [join_bytes]. unfold u32, fourcc. cbn [bind]. rewrite E. cbn [bind]. pose proof (blen_nonneg p).
  rewrite be32_s32 by lia. rewrite name_id by exact Ht. rewrite Hn. reflexivity.
Qed.
Lemma node_enc : forall t l, enc (Node t l) = be32 (8 + blen (encs l)) ++ t ++ encs l.
Proof.
  intros t l. cbn [enc]. replace ((fix go (l0 : list box) := match l0 with [] => [] | k :: r => enc k ++ go r end) l) with (encs l); [reflexivity|].
  induction l as [|b l IH]; [reflexivity|]. cbn [encs]. rewrite IH. reflexivity.
Qed.
Lemma node_tree : forall t l trees, blen t = 4 -> join_bytes (map serialize l) = Ok (encs trees) -> zsum (map size l) = blen (encs trees) ->
  8 + blen (encs trees) < 4294967296 -> serialize (W_container t l) = Ok (enc (Node t trees)).
Proof.
  intros t l trees Ht E Hs Hb. cbn [serialize size]. rewrite writes_eq, sizes_eq, E, Hs. unfold u32, fourcc. cbn [join_bytes bind].
  pose proof (blen_nonneg (encs trees)). rewrite be32_s32 by lia. rewrite name_id by exact Ht. rewrite app_nil_r, node_enc. reflexivity.
Qed.

(** ** The boxes of an init segment *)
Definition volume_of (c : codec) : Z := match c with AAC _ | AC3 _ _ => 256 | _ => 0 end.
Definition width_of (c : codec) : Z := match c with H264 w _ _ _ _ _ _ => w | _ => 0 end.
Definition height_of (c : codec) : Z := match c with H264 _ h _ _ _ _ _ => h | _ => 0 end.
Definition lang_of (c : codec) : string := match c with AAC a | AC3 _ a => ai_lang a | WebVTT l => l | _ => "und"%string end.
Definition name_of (c : codec) : bytes :=
  match c with H264 _ _ _ _ _ _ _ => bstr "Edgeware Video Media Handler" | WebVTT _ => bstr "Edgeware Subtitle Media Handler"
  | _ => bstr "Edgeware Audio Media Handler" end.
Definition header_of (c : codec) : wbox := match c with H264 _ _ _ _ _ _ _ => W_vmhd | WebVTT _ => W_nmhd | _ => W_smhd end.
Definition entry_of (c : codec) : result wbox :=
  match c with
  | H264 w h pr co le sps pps => Ok (W_visual (bstr "avc1") w h (W_avcC pr co le sps pps))
  | AAC a => Ok (W_audio (bstr "mp4a") (ai_channels a) (ai_sample_size a) (ai_sample_rate a) (ai_specific a))
  | AC3 n a => let* t := ac3_type n in Ok (W_audio t (ai_channels a) (ai_sample_size a) (ai_sample_rate a) (ai_specific a))
  | WebVTT _ => Ok W_wvtt
  end.
Definition minf_of (c : codec) (e : wbox) : wbox := create_minf_box (W_stsd [e]) (header_of c).
Definition trak_of (c : codec) (m : media_info) (d : Z) (e : wbox) : wbox :=
  W_container (bstr "trak") [W_tkhd (mi_track m) d (volume_of c) (width_of c) (height_of c);
    W_container (bstr "mdia") [W_mdhd (mi_timescale m) (mi_duration m) (lang_of c); W_hdlr (handler_of c) (name_of c); minf_of c e]].
Definition order_of (c : codec) (tr ex : wbox) : list wbox := match c with H264 _ _ _ _ _ _ _ => [tr; ex] | _ => [ex; tr] end.
Definition whole (c : codec) (m : media_info) (d : Z) (e : wbox) : wbox :=
  W_container (bstr "moov") (W_mvhd 90000 d (mi_track m + 1) :: order_of c (trak_of c m d e) (mvex (mi_track m))).
Lemma moov_of_eq : forall c m b, moov_of c m = Ok b -> exists d e, movie_time (mi_duration m) (mi_timescale m) = Ok d /\ entry_of c = Ok e /\ b = whole c m d e.
Proof.
  intros c m b H. destruct c; cbn [moov_of] in H;
    unfold create_moov_h264, create_moov_mp4a, create_moov_ac3, create_moov_mp4s, create_moov, create_box_trak_visual, create_box_trak_audio, create_box_trak_mp4s in H;
    destruct (movie_time (mi_duration m) (mi_timescale m)) as [d|]; try discriminate; cbn [bind] in H; exists d.
  - eexists. repeat split. apply ok_inj in H. subst b. reflexivity.
  - eexists. repeat split. apply ok_inj in H. subst b. reflexivity.
  - cbn [entry_of]. destruct (ac3_type name) as [t|]; [|discriminate]. cbn [bind] in H |- *. eexists. repeat split. apply ok_inj in H. subst b. reflexivity.
  - eexists. repeat split. apply ok_inj in H. subst b. reflexivity.
Qed.
Lemma moov_of_back : forall c m d e, movie_time (mi_duration m) (mi_timescale m) = Ok d -> entry_of c = Ok e -> moov_of c m = Ok (whole c m d e).
Proof.
  intros c m d e Hd He. destruct c; cbn [moov_of entry_of] in *;
    unfold create_moov_h264, create_moov_mp4a, create_moov_ac3, create_moov_mp4s, create_moov, create_box_trak_visual, create_box_trak_audio, create_box_trak_mp4s;
    rewrite Hd; cbn [bind].
  - apply ok_inj in He. subst e. reflexivity.
  - apply ok_inj in He. subst e. reflexivity.
  - destruct (ac3_type name) as [t|]; [|discriminate]. cbn [bind] in He |- *. apply ok_inj in He. subst e. reflexivity.
  - apply ok_inj in He. subst e. reflexivity.
Qed.

(** Payloads *)
Definition s32 := serialize_u32.
Definition mat : bytes := s32 65536 ++ s32 0 ++ s32 0 ++ s32 0 ++ s32 65536 ++ s32 0 ++ s32 0 ++ s32 0 ++ s32 1073741824.
Definition mvhd_p (d n : Z) : bytes :=
  (s32 0 ++ s32 0 ++ s32 0 ++ s32 90000) ++ s32 d ++ s32 65536 ++ [1; 0; 0; 0] ++ s32 0 ++ s32 0 ++ mat ++ repeat 0 24 ++ s32 n.
Definition tkhd_p (track d v w h : Z) : bytes :=
  (s32 7 ++ s32 0 ++ s32 0 ++ s32 track ++ s32 0) ++ s32 d ++ repeat 0 12 ++ be_bytes 2 v ++ [0; 0] ++ mat ++ s32 (Z.shiftl w 16) ++ s32 (Z.shiftl h 16).
Definition mdhd_p (ts dur : Z) (code : bytes) : bytes := (s32 0 ++ s32 0 ++ s32 0 ++ s32 ts) ++ s32 dur ++ code ++ [0; 0].
Definition hdlr_p (t n : bytes) : bytes := s32 0 ++ s32 0 ++ t ++ s32 0 ++ s32 0 ++ s32 0 ++ n ++ [0].
Definition trex_p (track : Z) : bytes := s32 0 ++ s32 track ++ s32 1 ++ s32 0 ++ s32 0 ++ s32 0.
Definition tree (c : codec) (mv tk md hd mi tx : bytes) : box :=
  let tr := Node (bstr "trak") [Leaf (bstr "tkhd") tk; Node (bstr "mdia") [Leaf (bstr "mdhd") md; Leaf (bstr "hdlr") hd; Leaf (bstr "minf") mi]] in
  let ex := Node (bstr "mvex") [Leaf (bstr "trex") tx] in
  Node (bstr "moov") (Leaf (bstr "mvhd") mv :: match c with H264 _ _ _ _ _ _ _ => [tr; ex] | _ => [ex; tr] end).
Lemma lang_ok : forall l, exists v, serialize_u16 (match lang_bits l with Ok v => v | Err _ => 21956 end) = Ok v /\ blen v = 2.
Proof.
  intros l. destruct (written_ok 1 1 l) as (code & Hc & E & _). unfold mdhd_bytes in E.
  destruct (serialize_u16 (match lang_bits l with Ok v => v | Err _ => 21956 end)) as [v|e] eqn:X; [|discriminate].
  exists v. split; [reflexivity|]. exact (u16_len _ _ X).
Qed.
Lemma len32 : forall x, blen (s32 x) = 4.
Proof. exact s32_len. Qed.
Lemma matlen : blen mat = 36.
Proof. reflexivity. Qed.
Ltac lens := rewrite ?blen_app, ?len32, ?matlen, ?blen_be_bytes, ?blen_cons, ?blen_nil; change (blen (repeat 0 24)) with 24; change (blen (repeat 0 12)) with 12.
Lemma mvhd_len : forall d n, blen (mvhd_p d n) = 100.
Proof. intros. unfold mvhd_p. lens. reflexivity. Qed.
Lemma tkhd_len : forall a b c d e, blen (tkhd_p a b c d e) = 84.
Proof. intros. unfold tkhd_p. lens. reflexivity. Qed.
Lemma mdhd_len : forall a b v, blen v = 2 -> blen (mdhd_p a b v) = 24.
Proof. intros a b v H. unfold mdhd_p. lens. rewrite H. reflexivity. Qed.
Lemma hdlr_len : forall t n, blen t = 4 -> blen (hdlr_p t n) = 25 + blen n.
Proof. intros t n H. unfold hdlr_p. lens. rewrite H. lia. Qed.
Lemma trex_len : forall t, blen (trex_p t) = 24.
Proof. intros. unfold trex_p. lens. reflexivity. Qed.

Lemma mvhd_tree : forall d n, serialize (W_mvhd 90000 d n) = Ok (enc (Leaf (bstr "mvhd") (mvhd_p d n))).
Proof.
  intros d n. cbn [serialize size app]. apply leaf_tree; [reflexivity| |rewrite mvhd_len; reflexivity|lia].
  unfold mvhd_p, mat, u32, u16, s32. cbn [matrix times repeat app join_bytes bind]. unfold u32. cbn [bind].
  change (serialize_u16 256) with (Ok [1; 0]). change (serialize_u16 0) with (Ok [0; 0]). cbn [bind]. rewrite <- !app_assoc. reflexivity.
Qed.
Lemma tkhd_tree : forall t d v w h, 0 <= v < 65536 -> serialize (W_tkhd t d v w h) = Ok (enc (Leaf (bstr "tkhd") (tkhd_p t d v w h))).
Proof.
  intros t d v w h Hv. cbn [serialize size app]. apply leaf_tree; [reflexivity| |rewrite tkhd_len; reflexivity|lia].
  unfold tkhd_p, mat, u32, u16, u64, s32. cbn [matrix times repeat app join_bytes bind]. unfold u32. cbn [bind].
  rewrite (s16_ok v Hv). change (serialize_u16 0) with (Ok [0; 0]). change (uint64_to_str 0) with (Ok [0; 0; 0; 0; 0; 0; 0; 0]). cbn [bind]. rewrite <- !app_assoc. reflexivity.
Qed.
Lemma hdlr_tree : forall t n, blen t = 4 -> 33 + blen n < 4294967296 -> serialize (W_hdlr t n) = Ok (enc (Leaf (bstr "hdlr") (hdlr_p t n))).
Proof.
  intros t n Ht Hn. cbn [serialize size app]. apply leaf_tree; [reflexivity| |rewrite hdlr_len by exact Ht; lia|lia].
  unfold hdlr_p, u32, raw, u8, s32. cbn [join_bytes bind]. reflexivity.
Qed.
Lemma trex_tree : forall t, serialize (W_trex t) = Ok (enc (Leaf (bstr "trex") (trex_p t))).
Proof.
  intros t. cbn [serialize size app]. apply leaf_tree; [reflexivity| |rewrite trex_len; reflexivity|lia].
  unfold trex_p, u32, s32. cbn [join_bytes bind]. rewrite app_nil_r. reflexivity.
Qed.
Lemma mdhd_tree : forall ts dur l v, serialize_u16 (match lang_bits l with Ok v => v | Err _ => 21956 end) = Ok v -> blen v = 2 ->
  serialize (W_mdhd ts dur l) = Ok (enc (Leaf (bstr "mdhd") (mdhd_p ts dur v))).
Proof.
  intros ts dur l v E L. cbn [serialize]. unfold mdhd_bytes. rewrite E. cbn [bind]. change (serialize_u16 0) with (Ok [0; 0]). cbn [bind enc].
  rewrite mdhd_len by exact L. rewrite be32_s32 by lia. unfold mdhd_p, s32. rewrite <- !app_assoc. reflexivity.
Qed.

Lemma handler_len : forall c, blen (handler_of c) = 4.
Proof. intros []; reflexivity. Qed.
Lemma volume_ok : forall c, 0 <= volume_of c < 65536.
Proof. intros []; cbn; lia. Qed.
Lemma name_short : forall c, 0 <= blen (name_of c) < 100.
Proof. intros []; cbn; lia. Qed.
Lemma entry_proper : forall c e, codec_ok c -> entry_of c = Ok e -> proper e.
Proof.
  intros c e Hc H. destruct c; cbn [entry_of codec_ok] in *.
  - apply ok_inj in H. subst e. cbn [proper]. split; [in_parents|exact I].
  - apply ok_inj in H. subst e. cbn [proper]. split; [in_parents|exact Hc].
  - unfold ac3_type in H. destruct (String.eqb name "ac-3"); [cbn [bind] in H; apply ok_inj in H; subst e; cbn [proper]; split; [in_parents|exact Hc]|].
    destruct (String.eqb name "ec-3" || String.eqb name "ec+3"); [|discriminate]. cbn [bind] in H; apply ok_inj in H; subst e; cbn [proper]; split; [in_parents|exact Hc].
  - apply ok_inj in H. subst e. exact I.
Qed.
Lemma minf_of_proper : forall c e, codec_ok c -> entry_of c = Ok e -> proper (minf_of c e).
Proof.
  intros c e Hc H. unfold minf_of. apply minf_proper; [|destruct c; exact I]. cbn [proper]. split; [exact (entry_proper _ _ Hc H)|exact I].
Qed.
Lemma whole_proper : forall c m d e, codec_ok c -> entry_of c = Ok e -> proper (whole c m d e).
Proof.
  intros c m d e Hc H. unfold whole. pose proof (minf_of_proper c e Hc H) as Hm. pose proof (mvex_proper (mi_track m)) as Hx.
  assert (Ht : proper (trak_of c m d e)).
  { unfold trak_of. cbn [proper]. split; [in_parents|]. split; [exact I|]. split; [|exact I]. split; [in_parents|]. split; [exact I|].
    split; [apply handler_len|]. split; [exact Hm|exact I]. }
  cbn [proper]. split; [in_parents|]. split; [exact I|]. destruct c; cbn [order_of]; (split; [assumption|split; [assumption|exact I]]).
Qed.
Lemma minf_leaf : forall c e mo, codec_ok c -> entry_of c = Ok e -> serialize (minf_of c e) = Ok mo -> blen mo < 4294967296 ->
  exists k, mo = enc (Leaf (bstr "minf") k) /\ size (minf_of c e) = 8 + blen k.
Proof.
  intros c e mo Hc He H Hb. pose proof (proj1 (C77_complete_partial_pf _ _ (minf_of_proper c e Hc He) H)) as L.
  unfold minf_of, create_minf_box in H. apply container_inv in H. destruct H as (k & _ & E). exists k.
  assert (Lk : blen mo = 8 + blen k) by (rewrite E, !blen_app, s32_len, name_len; lia).
  split; [|lia]. rewrite E. change (W_container _ _) with (minf_of c e). rewrite <- L, Lk. pose proof (blen_nonneg k).
  rewrite be32_s32 by lia. reflexivity.
Qed.
Lemma whole_inv : forall c m d e o, serialize (whole c m d e) = Ok o -> exists mo, serialize (minf_of c e) = Ok mo /\ blen mo <= blen o.
Proof.
  intros c m d e o H.
  assert (T : exists tr, serialize (trak_of c m d e) = Ok tr /\ blen tr <= blen o).
  { unfold whole in H. apply container_inv in H. destruct H as (k & E & ->). cbn [map] in E. apply join_cons in E. destruct E as (a & b & _ & E & ->).
    rewrite !blen_app. pose proof (blen_nonneg a). rewrite s32_len, name_len.
    destruct c; cbn [order_of map] in E; apply join_cons in E; destruct E as (x & y & E1 & E & ->); apply join_cons in E; destruct E as (x' & y' & E2 & E3 & ->);
      inversion E3; subst y'; rewrite app_nil_r, blen_app; pose proof (blen_nonneg x); pose proof (blen_nonneg x').
    - exists x. split; [exact E1|lia].
    - exists x'. split; [exact E2|lia].
    - exists x'. split; [exact E2|lia].
    - exists x'. split; [exact E2|lia]. }
  destruct T as (tr & T & Lt). unfold trak_of in T. apply container_inv in T. destruct T as (k & E & ->). cbn [map] in E.
  apply join_cons in E. destruct E as (a & b & _ & E & ->). apply join_cons in E. destruct E as (a' & b' & E1 & _ & ->).
  apply container_inv in E1. destruct E1 as (k & E & ->). cbn [map] in E.
  apply join_cons in E. destruct E as (p1 & q1 & _ & E & ->). apply join_cons in E. destruct E as (p2 & q2 & _ & E & ->).
  apply join_cons in E. destruct E as (mo & z & E & _ & ->). exists mo. split; [exact E|].
  rewrite !blen_app, !s32_len, !name_len in Lt. pose proof (blen_nonneg a). pose proof (blen_nonneg b'). pose proof (blen_nonneg p1).
  pose proof (blen_nonneg p2). pose proof (blen_nonneg z). lia.
Qed.

Lemma leaf_len : forall t p, blen t = 4 -> blen (enc (Leaf t p)) = 8 + blen p.
Proof. intros t p H. cbn [enc]. rewrite !blen_app, H. change (blen (be32 (8 + blen p))) with 4. lia. Qed.
Lemma node_len : forall t l, blen t = 4 -> blen (enc (Node t l)) = 8 + blen (encs l).
Proof. intros t l H. rewrite node_enc, !blen_app, H. change (blen (be32 (8 + blen (encs l)))) with 4. lia. Qed.
Lemma whole_tree : forall c m d e k v, serialize (minf_of c e) = Ok (enc (Leaf (bstr "minf") k)) -> size (minf_of c e) = 8 + blen k ->
  serialize_u16 (match lang_bits (lang_of c) with Ok v => v | Err _ => 21956 end) = Ok v -> blen v = 2 -> 337 + blen (name_of c) + blen k < 4294967296 ->
  serialize (whole c m d e) = Ok (enc (tree c (mvhd_p d (mi_track m + 1)) (tkhd_p (mi_track m) d (volume_of c) (width_of c) (height_of c))
    (mdhd_p (mi_timescale m) (mi_duration m) v) (hdlr_p (handler_of c) (name_of c)) k (trex_p (mi_track m)))).
Proof.
  intros c m d e k v Em Sm Ev Lv Hb. pose proof (name_short c) as Hn. pose proof (blen_nonneg k) as Hk.
  set (tk := tkhd_p (mi_track m) d (volume_of c) (width_of c) (height_of c)). set (md := mdhd_p (mi_timescale m) (mi_duration m) v).
  set (hd := hdlr_p (handler_of c) (name_of c)).
  assert (Ltk : blen tk = 84) by apply tkhd_len. assert (Lmd : blen md = 24) by (apply mdhd_len; exact Lv).
  assert (Lhd : blen hd = 25 + blen (name_of c)) by (apply hdlr_len; apply handler_len).
  pose proof (trex_len (mi_track m)) as Ltx. pose proof (mvhd_len d (mi_track m + 1)) as Lmv.
  set (mdia := [Leaf (bstr "mdhd") md; Leaf (bstr "hdlr") hd; Leaf (bstr "minf") k]).
  assert (Lmdia : blen (encs mdia) = 73 + blen (name_of c) + blen k).
  { unfold mdia. cbn [encs]. rewrite !blen_app, !leaf_len by reflexivity. cbn [blen List.length]. change (blen []) with 0. lia. }
  assert (Emdia : serialize (W_container (bstr "mdia") [W_mdhd (mi_timescale m) (mi_duration m) (lang_of c); W_hdlr (handler_of c) (name_of c); minf_of c e]) = Ok (enc (Node (bstr "mdia") mdia))).
  { apply node_tree; [reflexivity| | |rewrite Lmdia; lia].
    - cbn [map]. rewrite (mdhd_tree _ _ _ _ Ev Lv), hdlr_tree by (try apply handler_len; lia). rewrite Em. cbn [join_bytes bind]. reflexivity.
    - cbn [map size zsum fold_right]. rewrite Sm, Lmdia. lia. }
  set (trak := [Leaf (bstr "tkhd") tk; Node (bstr "mdia") mdia]).
  assert (Ltrak : blen (encs trak) = 173 + blen (name_of c) + blen k).
  { unfold trak. cbn [encs]. rewrite !blen_app, node_len, leaf_len by reflexivity. change (blen []) with 0. lia. }
  assert (Smdia : size (W_container (bstr "mdia") [W_mdhd (mi_timescale m) (mi_duration m) (lang_of c); W_hdlr (handler_of c) (name_of c); minf_of c e]) = 81 + blen (name_of c) + blen k).
  { cbn [size]. rewrite Sm. lia. }
  assert (Etrak : serialize (trak_of c m d e) = Ok (enc (Node (bstr "trak") trak))).
  { apply node_tree; [reflexivity| | |rewrite Ltrak; lia].
    - cbn [map]. rewrite Emdia, tkhd_tree by apply volume_ok. reflexivity.
    - cbn [map]. rewrite Smdia. cbn [size zsum fold_right]. rewrite Ltrak. lia. }
  set (mv := [Leaf (bstr "trex") (trex_p (mi_track m))]).
  assert (Lmvex : blen (encs mv) = 32) by (unfold mv; cbn [encs]; rewrite app_nil_r, leaf_len by reflexivity; lia).
  assert (Emvex : serialize (mvex (mi_track m)) = Ok (enc (Node (bstr "mvex") mv))).
  { apply node_tree; [reflexivity| | |rewrite Lmvex; lia].
    - cbn [map]. rewrite trex_tree. reflexivity.
    - rewrite Lmvex. reflexivity. }
  assert (Strak : size (trak_of c m d e) = 181 + blen (name_of c) + blen k).
  { unfold trak_of. remember (W_container (bstr "mdia") _) as q. cbn [size]. rewrite Smdia. lia. }
  unfold whole, tree. fold mdia. fold trak. fold mv.
  apply node_tree; [reflexivity| | |].
  - destruct c; cbn [order_of map]; rewrite Emvex, Etrak, mvhd_tree; reflexivity.
  - change (size (W_mvhd 90000 d (mi_track m + 1))) with 108.
    destruct c; cbn [order_of map zsum fold_right encs]; rewrite Strak; change (size (mvex (mi_track m))) with 40; change (size (W_mvhd 90000 d (mi_track m + 1))) with 108;
      rewrite !blen_app, !node_len, leaf_len, Ltrak, Lmvex by reflexivity; change (blen []) with 0; lia.
  - destruct c; cbn [encs]; rewrite !blen_app, !node_len, leaf_len, Ltrak, Lmvex by reflexivity; change (blen []) with 0; lia.
Qed.

Lemma whole_size : forall c m d e k, size (minf_of c e) = 8 + blen k -> size (whole c m d e) = 337 + blen (name_of c) + blen k.
Proof.
  intros c m d e k Sm. assert (St : size (trak_of c m d e) = 181 + blen (name_of c) + blen k) by (unfold trak_of; cbn [size]; rewrite Sm; lia).
  unfold whole. cbn [size]. rewrite sizes_eq. destruct c; cbn [order_of map zsum fold_right]; rewrite St; change (size (mvex (mi_track m))) with 40; lia.
Qed.
(** An init segment as a tree, and the one without duration *)
Definition ftyp_p : bytes := bstr "cmfc" ++ [0; 0; 0; 0] ++ bstr "iso9" ++ bstr "dash".
Definition file_tree (c : codec) (m : media_info) (d : Z) (v k : bytes) : list box :=
  [Leaf (bstr "ftyp") ftyp_p; tree c (mvhd_p d (mi_track m + 1)) (tkhd_p (mi_track m) d (volume_of c) (width_of c) (height_of c))
    (mdhd_p (mi_timescale m) (mi_duration m) v) (hdlr_p (handler_of c) (name_of c)) k (trex_p (mi_track m))].
Lemma file_forms : forall c m out, codec_ok c -> init_file c m out -> exists d v k, blen v = 2 /\ 337 + blen (name_of c) + blen k < 4294967296 /\
  out = encs (file_tree c m d v k) /\ init_file c (no_duration m) (encs (file_tree c (no_duration m) 0 v k)).
Proof.
  intros c m out Hc (b & f & o & Hb & Hf & Ho & L & ->). destruct (moov_of_eq c m b Hb) as (d & e & Hd & He & ->).
  pose proof (proj1 (C77_complete_partial_pf _ _ (whole_proper c m d e Hc He) Ho)) as Lo.
  destruct (whole_inv _ _ _ _ _ Ho) as (mo & Hm & Lm). destruct (minf_leaf c e mo Hc He Hm) as (k & -> & Sk); [lia|].
  destruct (lang_ok (lang_of c)) as (v & Ev & Lv). rewrite (whole_size _ _ _ _ _ Sk) in Lo.
  assert (Ef : f = enc (Leaf (bstr "ftyp") ftyp_p)) by (apply ok_inj; rewrite <- Hf; reflexivity).
  exists d, v, k. split; [exact Lv|]. split; [lia|].
  assert (W : forall m d, serialize (whole c m d e) = Ok (enc (tree c (mvhd_p d (mi_track m + 1)) (tkhd_p (mi_track m) d (volume_of c) (width_of c) (height_of c))
    (mdhd_p (mi_timescale m) (mi_duration m) v) (hdlr_p (handler_of c) (name_of c)) k (trex_p (mi_track m))))) by (intros; apply whole_tree; auto; lia).
  split.
  - unfold file_tree. cbn [encs]. rewrite app_nil_r. rewrite W in Ho. apply ok_inj in Ho. rewrite Ho, Ef. reflexivity.
  - assert (Hd0 : movie_time 0 (mi_timescale m) = Ok 0).
    { unfold movie_time in *. destruct (mi_timescale m =? 0) eqn:X; [discriminate|]. rewrite Z.mul_0_l, Z.quot_0_l by lia. reflexivity. }
    exists (whole c (no_duration m) 0 e), f. eexists. split; [apply moov_of_back; [exact Hd0|exact He]|]. split; [exact Hf|]. split; [apply W|].
    split.
    + pose proof (proj1 (C77_complete_partial_pf _ _ (whole_proper c (no_duration m) 0 e Hc He) (W _ _))) as L0.
      rewrite L0, (whole_size _ _ _ _ _ Sk). lia.
    + unfold file_tree. cbn [encs]. rewrite app_nil_r, Ef. reflexivity.
Qed.
(** The tree is one that the init filters can read. *)
Lemma tree_ok : forall (lk : bytes -> bytes -> Prop) c mv tk md hd mi tx, blen mv = 100 -> blen tk = 84 -> blen md = 24 -> blen hd = 25 + blen (name_of c) -> blen tx = 24 ->
  337 + blen (name_of c) + blen mi < 4294967296 ->
  lk (bstr "mvhd") mv -> lk (bstr "tkhd") tk -> lk (bstr "mdhd") md -> lk (bstr "hdlr") hd -> lk (bstr "minf") mi -> lk (bstr "trex") tx ->
  lk (bstr "ftyp") ftyp_p ->
  boxes_ok movie_containers lk [Leaf (bstr "ftyp") ftyp_p; tree c mv tk md hd mi tx].
Proof.
  intros lk c mv tk md hd mi tx L1 L2 L3 L4 L5 Lm K1 K2 K3 K4 K5 K6 K7. pose proof (name_short c) as Hn. pose proof (blen_nonneg mi) as Hk.
  assert (NI : forall t, existsb (bytes_eqb t) movie_containers = false -> ~ In t movie_containers).
  { intros t H Hi. assert (existsb (bytes_eqb t) movie_containers = true) by (apply existsb_exists; exists t; split; [exact Hi|apply bytes_eqb_refl]). congruence. }
  assert (B1 : box_ok movie_containers lk (Leaf (bstr "tkhd") tk)) by (cbn [box_ok]; split; [reflexivity|]; split; [apply NI; reflexivity|]; split; [lia|exact K2]).
  assert (B2 : box_ok movie_containers lk (Leaf (bstr "mdhd") md)) by (cbn [box_ok]; split; [reflexivity|]; split; [apply NI; reflexivity|]; split; [lia|exact K3]).
  assert (B3 : box_ok movie_containers lk (Leaf (bstr "hdlr") hd)) by (cbn [box_ok]; split; [reflexivity|]; split; [apply NI; reflexivity|]; split; [lia|exact K4]).
  assert (B4 : box_ok movie_containers lk (Leaf (bstr "minf") mi)) by (cbn [box_ok]; split; [reflexivity|]; split; [apply NI; reflexivity|]; split; [lia|exact K5]).
  assert (B5 : box_ok movie_containers lk (Leaf (bstr "trex") tx)) by (cbn [box_ok]; split; [reflexivity|]; split; [apply NI; reflexivity|]; split; [lia|exact K6]).
  assert (B6 : box_ok movie_containers lk (Leaf (bstr "mvhd") mv)) by (cbn [box_ok]; split; [reflexivity|]; split; [apply NI; reflexivity|]; split; [lia|exact K1]).
  set (mdia := Node (bstr "mdia") [Leaf (bstr "mdhd") md; Leaf (bstr "hdlr") hd; Leaf (bstr "minf") mi]).
  assert (Lmdia : blen (enc mdia) = 81 + blen (name_of c) + blen mi).
  { unfold mdia. rewrite node_len by reflexivity. cbn [encs]. rewrite !blen_app, !leaf_len by reflexivity. change (blen []) with 0. lia. }
  assert (B7 : box_ok movie_containers lk mdia).
  { split; [reflexivity|]. split; [cbn; tauto|]. split; [change (blen (enc mdia) < 4294967296); lia|]. split; [exact B2|]. split; [exact B3|]. split; [exact B4|exact I]. }
  set (trak := Node (bstr "trak") [Leaf (bstr "tkhd") tk; mdia]).
  assert (Ltrak : blen (enc trak) = 181 + blen (name_of c) + blen mi).
  { unfold trak. rewrite node_len by reflexivity. cbn [encs]. rewrite !blen_app, leaf_len, Lmdia by reflexivity. change (blen []) with 0. lia. }
  assert (B8 : box_ok movie_containers lk trak).
  { split; [reflexivity|]. split; [cbn; tauto|]. split; [change (blen (enc trak) < 4294967296); lia|]. split; [exact B1|]. split; [exact B7|exact I]. }
  set (ex := Node (bstr "mvex") [Leaf (bstr "trex") tx]).
  assert (Lex : blen (enc ex) = 40).
  { unfold ex. rewrite node_len by reflexivity. cbn [encs]. rewrite !blen_app, leaf_len by reflexivity. change (blen []) with 0. lia. }
  assert (B9 : box_ok movie_containers lk ex).
  { split; [reflexivity|]. split; [cbn; tauto|]. split; [change (blen (enc ex) < 4294967296); lia|]. split; [exact B5|exact I]. }
  cbn [boxes_ok]. split; [cbn [box_ok]; split; [reflexivity|]; split; [apply NI; reflexivity|]; split; [reflexivity|exact K7]|]. split; [|exact I].
  unfold tree. fold mdia. fold trak. fold ex.
  assert (Lw : forall l, l = [trak; ex] \/ l = [ex; trak] -> blen (enc (Node (bstr "moov") (Leaf (bstr "mvhd") mv :: l))) < 4294967296).
  { intros l Hl. rewrite node_len by reflexivity. destruct Hl as [-> | ->]; cbn [encs]; rewrite !blen_app, leaf_len, Lex, Ltrak by reflexivity; change (blen []) with 0; lia. }
  destruct c; (split; [reflexivity|]; split; [cbn; tauto|]; split; [apply Lw; tauto|]; split; [exact B6|]).
  - split; [exact B8|]. split; [exact B9|exact I].
  - split; [exact B9|]. split; [exact B8|exact I].
  - split; [exact B9|]. split; [exact B8|exact I].
  - split; [exact B9|]. split; [exact B8|exact I].
Qed.
