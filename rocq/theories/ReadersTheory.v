(** Boxes that are written and read again (C80). *)
From Verif Require Import Base BaseProofs BytesModel BytesProofs ChunkModel ChunkParse LangModel LangTheory BoxesModel BoxesProofs TablesModel ReadersModel ReadersSpec ReadersProofs.
From Coq Require Import Lia ZArith List.
Import ListNotations.
Open Scope Z_scope.

Ltac oks := rewrite <- join_oks; reflexivity.
Tactic Notation "place" constr(W) constr(E) ident(P) ident(S) := destruct (placed_of _ _ _ _ _ W E) as [P S].

(** Examples: a box after three bytes and before two *)
Definition bytes_of (b : wbox) : bytes := match serialize b with Ok x => x | Err _ => [] end.
Definition within_file (b : wbox) : bytes := [1; 2; 3] ++ bytes_of b ++ [9; 8].
Ltac in_place b := exists [1; 2; 3], (bytes_of b), [9; 8]; vm_compute; repeat split; reflexivity.

Lemma C80_movie_pf : forall data o n timescale duration next, written data o (W_mvhd timescale duration next) n -> bits 32 timescale -> bits 32 duration ->
  u32_at data o = Ok n /\ mvhd_at data o = Ok (0, 0, timescale, duration).
Proof.
  intros data o n t d nx W Ht Hd.
  assert (E : serialize (W_mvhd t d nx) = Ok (concat ([s32 108; bstr "mvhd"; s32 0; s32 0; s32 0; s32 t; s32 d; s32 65536; be_bytes 2 256; be_bytes 2 0; s32 0; s32 0] ++
      [s32 65536; s32 0; s32 0; s32 0; s32 65536; s32 0; s32 0; s32 0; s32 1073741824] ++ repeat (s32 0) 6%nat ++ [s32 nx]))) by oks.
  place W E P Sz. subst n. assert (Z0 : bits 32 0) by (unfold bits; cbn; lia). split.
  - rewrite (at32 _ _ _ 0 108 0 _ P eq_refl eq_refl) by (unfold bits; cbn; lia). reflexivity.
  - unfold mvhd_at. rewrite (at_full _ _ _ 2 0 0 P eq_refl eq_refl) by lia. cbn [bind Z.eqb].
    rewrite (at32 _ _ _ 3 0 12 _ P eq_refl eq_refl Z0 eq_refl). cbn [bind].
    rewrite (at32 _ _ _ 4 0 16 _ P eq_refl eq_refl Z0 eq_refl). cbn [bind].
    rewrite (at32 _ _ _ 5 t 20 _ P eq_refl eq_refl Ht eq_refl). cbn [bind].
    rewrite (at32 _ _ _ 6 d 24 _ P eq_refl eq_refl Hd eq_refl). reflexivity.
Qed.
Example C80_movie_case : let b := W_mvhd 90000 180000 2 in written (within_file b) 3 b 108 /\ bits 32 90000 /\ bits 32 180000.
Proof.
  cbv zeta. split; [in_place (W_mvhd 90000 180000 2)|]. unfold bits. repeat constructor; vm_compute; congruence.
Qed.

Lemma shift_bits : forall x, bits 16 x -> bits 32 (Z.shiftl x 16) /\ Z.shiftr (Z.shiftl x 16) 16 = x.
Proof.
  intros x H. unfold bits in *. change (2 ^ 16) with 65536 in H. change (2 ^ 32) with 4294967296. rewrite Z.shiftl_mul_pow2 by lia.
  change (2 ^ 16) with 65536. split; [lia|]. rewrite Z.shiftr_div_pow2 by lia. change (2 ^ 16) with 65536. apply Z.div_mul. lia.
Qed.

Lemma C80_track_pf : forall data o n track duration volume width height, written data o (W_tkhd track duration volume width height) n ->
  bits 32 track -> bits 32 duration -> bits 16 volume -> bits 16 width -> bits 16 height ->
  u32_at data o = Ok n /\ tkhd_at data o n = Ok (track, duration, width, height).
Proof.
  intros data o n t d v w h W Ht Hd Hv Hw Hh. destruct (shift_bits w Hw) as [W1 W2]. destruct (shift_bits h Hh) as [H1 H2].
  assert (E : serialize (W_tkhd t d v w h) = Ok (concat ([s32 92; bstr "tkhd"; s32 7; s32 0; s32 0; s32 t; s32 0; s32 d; s32 0; s32 0; s32 0; be_bytes 2 v ++ be_bytes 2 0] ++
      [s32 65536; s32 0; s32 0; s32 0; s32 65536; s32 0; s32 0; s32 0; s32 1073741824] ++ [s32 (Z.shiftl w 16); s32 (Z.shiftl h 16)]))).
  { cbn [serialize size]. rewrite (u16_is v Hv).
    transitivity (join_bytes (map Ok ([s32 92; bstr "tkhd"; s32 7; s32 0; s32 0; s32 t; s32 0; s32 d; be_bytes 8 0; be_bytes 2 0; be_bytes 2 0; be_bytes 2 v; be_bytes 2 0] ++
      [s32 65536; s32 0; s32 0; s32 0; s32 65536; s32 0; s32 0; s32 0; s32 1073741824] ++ [s32 (Z.shiftl w 16); s32 (Z.shiftl h 16)]))); [reflexivity|].
    rewrite join_oks. reflexivity. }
  place W E P Sz. subst n. split.
  - rewrite (at32 _ _ _ 0 92 0 _ P eq_refl eq_refl) by (unfold bits; cbn; lia). reflexivity.
  - unfold tkhd_at. rewrite (at_full _ _ _ 2 0 7 P eq_refl eq_refl) by lia. cbn [bind Z.eqb]. cbv zeta.
    rewrite (tail_slice _ _ _ 3 12 _ P eq_refl eq_refl). cbn [skipn app concat].
    repeat (rewrite send_f by (try reflexivity; lia); cbn [bind]).
    rewrite !s32v by assumption. rewrite W2, H2. reflexivity.
Qed.
Example C80_track_case : let b := W_tkhd 7 180000 256 1920 1080 in written (within_file b) 3 b 92 /\ bits 32 7 /\ bits 32 180000 /\ bits 16 256 /\ bits 16 1920 /\ bits 16 1080.
Proof.
  cbv zeta. split; [in_place (W_tkhd 7 180000 256 1920 1080)|]. unfold bits. repeat constructor; vm_compute; congruence.
Qed.

Lemma C80_handler_pf : forall data o n type name, written data o (W_hdlr type name) n -> blen type = 4 -> bits 32 n ->
  u32_at data o = Ok n /\ hdlr_at data o n = Ok (type, name ++ [0]).
Proof.
  intros data o n ty nm W Ht Hn. pose proof (blen_nonneg nm).
  assert (E : serialize (W_hdlr ty nm) = Ok (concat [s32 (33 + blen nm); bstr "hdlr"; s32 0; s32 0; ty; s32 0; s32 0; s32 0; nm ++ [0]])).
  { transitivity (join_bytes (map Ok [s32 (33 + blen nm); bstr "hdlr"; s32 0; s32 0; ty; s32 0; s32 0; s32 0; nm; [0]])); [reflexivity|].
    rewrite join_oks. cbn [concat]. rewrite !app_nil_r. reflexivity. }
  place W E P Sz.
  assert (L : n = 33 + blen nm).
  { rewrite Sz. cbn [concat]. rewrite !blen_app, Ht. change (blen (s32 (33 + blen nm))) with 4. change (blen (s32 0)) with 4. change (blen (bstr "hdlr")) with 4. change (blen [0]) with 1. change (blen []) with 0. lia. }
  split.
  - rewrite (at32 _ _ _ 0 (33 + blen nm) 0 _ P eq_refl eq_refl) by (rewrite <- ?L; auto; lia). rewrite L. reflexivity.
  - unfold hdlr_at. rewrite (at_full _ _ _ 2 0 0 P eq_refl eq_refl) by lia. cbn [bind]. cbv zeta.
    rewrite (tail_slice _ _ _ 3 12 _ P eq_refl Sz). cbn [skipn concat].
    rewrite send_f by (try reflexivity; lia). cbn [bind]. rewrite send_n by (unfold blen in Ht; lia). cbn [bind].
    do 3 (rewrite send_f by (try reflexivity; lia); cbn [bind]). rewrite L. rewrite send_n by (rewrite app_length; change (List.length [0]) with 1%nat; unfold blen; lia).
    reflexivity.
Qed.
Example C80_handler_case : let b := W_hdlr (bstr "vide") (bstr "Video") in written (within_file b) 3 b 38 /\ blen (bstr "vide") = 4 /\ bits 32 38.
Proof.
  cbv zeta. split; [in_place (W_hdlr (bstr "vide") (bstr "Video"))|]. unfold bits. repeat constructor; vm_compute; congruence.
Qed.

Lemma C80_defaults_pf : forall data o n track, written data o (W_trex track) n -> bits 32 track ->
  u32_at data o = Ok n /\ trex_at data o = Ok (track, 1, 0, 0, 0).
Proof.
  intros data o n t W Ht. assert (E : serialize (W_trex t) = Ok (concat [s32 32; bstr "trex"; s32 0; s32 t; s32 1; s32 0; s32 0; s32 0])) by oks.
  place W E P Sz. subst n. assert (Z0 : bits 32 0) by (unfold bits; cbn; lia). assert (Z1 : bits 32 1) by (unfold bits; cbn; lia). split.
  - rewrite (at32 _ _ _ 0 32 0 _ P eq_refl eq_refl) by (unfold bits; cbn; lia). reflexivity.
  - unfold trex_at. rewrite (at_full _ _ _ 2 0 0 P eq_refl eq_refl) by lia. cbn [bind].
    rewrite (at32 _ _ _ 3 t 12 _ P eq_refl eq_refl Ht eq_refl). cbn [bind]. rewrite (at32 _ _ _ 4 1 16 _ P eq_refl eq_refl Z1 eq_refl). cbn [bind].
    rewrite (at32 _ _ _ 5 0 20 _ P eq_refl eq_refl Z0 eq_refl). cbn [bind]. rewrite (at32 _ _ _ 6 0 24 _ P eq_refl eq_refl Z0 eq_refl). cbn [bind].
    rewrite (at32 _ _ _ 7 0 28 _ P eq_refl eq_refl Z0 eq_refl). reflexivity.
Qed.
Example C80_defaults_case : let b := W_trex 7 in written (within_file b) 3 b 32 /\ bits 32 7.
Proof.
  cbv zeta. split; [in_place (W_trex 7)|]. unfold bits. repeat constructor; vm_compute; congruence.
Qed.

Lemma C80_fragment_pf : forall data o n x,
  (written data o (W_mfhd x) n -> bits 32 x -> u32_at data o = Ok n /\ mfhd_at data o = Ok x) /\
  (written data o (W_tfhd x) n -> bits 32 x -> u32_at data o = Ok n /\ tfhd_at data o = Ok (mk_tfhd x None None None None)) /\
  (written data o (W_tfdt x) n -> bits 64 x -> u32_at data o = Ok n /\ tfdt_at data o = Ok x).
Proof.
  intros data o n x. split; [|split]; intros W Hx.
  - assert (E : serialize (W_mfhd x) = Ok (concat [s32 16; bstr "mfhd"; s32 0; s32 x])) by oks. place W E P Sz. subst n.
    split; [rewrite (at32 _ _ _ 0 16 0 _ P eq_refl eq_refl) by (unfold bits; cbn; lia); reflexivity|]. exact (at32 _ _ _ 3 x 12 _ P eq_refl eq_refl Hx eq_refl).
  - assert (E : serialize (W_tfhd x) = Ok (concat [s32 16; bstr "tfhd"; s32 131072; s32 x])) by oks. place W E P Sz. subst n.
    split; [rewrite (at32 _ _ _ 0 16 0 _ P eq_refl eq_refl) by (unfold bits; cbn; lia); reflexivity|].
    unfold tfhd_at. rewrite (at_full _ _ _ 2 0 131072 P eq_refl eq_refl) by lia. cbn [bind].
    unfold opt_at. change (Z.testbit 131072 0) with false. change (Z.testbit 131072 1) with false. change (Z.testbit 131072 3) with false.
    change (Z.testbit 131072 4) with false. change (Z.testbit 131072 5) with false. cbn [bind].
    rewrite (at32 _ _ _ 3 x 12 _ P eq_refl eq_refl Hx eq_refl). reflexivity.
  - assert (E : serialize (W_tfdt x) = Ok (concat [s32 20; bstr "tfdt"; s32 16777216; be_bytes 8 x])).
    { cbn [serialize size]. rewrite (u64_is x Hx). rewrite <- join_oks. reflexivity. } place W E P Sz. subst n.
    split; [rewrite (at32 _ _ _ 0 20 0 _ P eq_refl eq_refl) by (unfold bits; cbn; lia); reflexivity|].
    unfold tfdt_at. rewrite (at_full _ _ _ 2 1 0 P eq_refl eq_refl) by lia. cbn [bind Z.eqb].
    exact (at64 _ _ _ 3 x 12 _ P eq_refl eq_refl Hx eq_refl).
Qed.
Example C80_fragment_case : let b := W_tfdt 17000000000 in written (within_file b) 3 b 20 /\ bits 64 17000000000.
Proof.
  cbv zeta. split; [in_place (W_tfdt 17000000000)|]. unfold bits. repeat constructor; vm_compute; congruence.
Qed.

Lemma C80_video_partial_pf : forall data o n coding width height config, written data o (W_visual coding width height config) n -> blen coding = 4 ->
  bits 15 width -> bits 15 height ->
  data_reference_index data o = Ok 1 /\ avcx_at data o = Ok (mk_avcx width height 4718592 4718592 1 24).
Proof.
  intros data o n c w h g W Hc Hw Hh.
  assert (Hw' : bits 16 w) by (unfold bits in *; change (2 ^ 15) with 32768 in *; change (2 ^ 16) with 65536; lia).
  assert (Hh' : bits 16 h) by (unfold bits in *; change (2 ^ 15) with 32768 in *; change (2 ^ 16) with 65536; lia).
  destruct W as (pre & out & post & E & D & Ho & Hn). destruct (serialize g) as [cfg|] eqn:G.
  2:{ exfalso. cbn [serialize] in E. rewrite G, (u16_is w Hw'), (u16_is h Hh') in E. cbn in E. discriminate. }
  set (fs := [s32 (86 + size g); c; serialize_bytes 0 6; be_bytes 2 1; be_bytes 2 0; be_bytes 2 0; serialize_bytes 0 12; be_bytes 2 w; be_bytes 2 h;
     s32 4718592; s32 4718592; serialize_bytes 0 4; be_bytes 2 1; serialize_bytes 0 32; be_bytes 2 24; be_bytes 2 65535; cfg]).
  assert (E' : serialize (W_visual c w h g) = Ok (concat fs)).
  { cbn [serialize size]. unfold fourcc. rewrite name_id by exact Hc. rewrite G, (u16_is w Hw'), (u16_is h Hh'). unfold fs. rewrite <- join_oks. reflexivity. }
  assert (W : written data o (W_visual c w h g) n) by (exists pre, out, post; auto).
  place W E' P Sz.
  assert (L : forall k m, blen (concat (firstn k (skipn 2 fs))) = m -> blen (concat (firstn (S (S k)) fs)) = 8 + m).
  { intros k m <-. unfold fs. cbn [firstn skipn concat]. rewrite !blen_app, Hc. change (blen (s32 _)) with 4. lia. }
  split.
  - exact (at16 _ _ fs 3 1 14 _ P eq_refl (L 1%nat 6 eq_refl) ltac:(unfold bits; cbn; lia) eq_refl).
  - unfold avcx_at.
    rewrite (at16s _ _ fs 7 w 32 _ P eq_refl (L 5%nat 24 eq_refl) Hw eq_refl). cbn [bind].
    rewrite (at16s _ _ fs 8 h 34 _ P eq_refl (L 6%nat 26 eq_refl) Hh eq_refl). cbn [bind].
    rewrite (at32 _ _ fs 9 4718592 36 _ P eq_refl (L 7%nat 28 eq_refl)) by (try reflexivity; unfold bits; cbn; lia). cbn [bind].
    rewrite (at32 _ _ fs 10 4718592 40 _ P eq_refl (L 8%nat 32 eq_refl)) by (try reflexivity; unfold bits; cbn; lia). cbn [bind].
    rewrite (at16s _ _ fs 12 1 48 _ P eq_refl (L 10%nat 40 eq_refl)) by (try reflexivity; unfold bits; cbn; lia). cbn [bind].
    rewrite (at16s _ _ fs 14 24 82 _ P eq_refl (L 12%nat 74 eq_refl)) by (try reflexivity; unfold bits; cbn; lia). reflexivity.
Qed.
Example C80_video_partial_case : let b := W_visual (bstr "avc1") 1920 1080 (W_avcC 100 0 40 [103; 100] [104]) in written (within_file b) 3 b 108 /\ blen (bstr "avc1") = 4 /\ bits 15 1920 /\ bits 15 1080.
Proof.
  cbv zeta. split; [in_place (W_visual (bstr "avc1") 1920 1080 (W_avcC 100 0 40 [103; 100] [104]))|]. unfold bits. repeat constructor; vm_compute; congruence.
Qed.

Lemma C80_audio_partial_pf : forall data o n coding channels sample_size sample_rate specific, written data o (W_audio coding channels sample_size sample_rate specific) n ->
  blen coding = 4 -> bits 15 channels -> bits 15 sample_size -> bits 16 sample_rate ->
  data_reference_index data o = Ok 1 /\ audio_at data o = Ok (channels, sample_size, sample_rate).
Proof.
  intros data o n c ch ss sr sp W Hc Hch Hss Hsr. destruct (shift_bits sr Hsr) as [R1 R2].
  assert (Hch' : bits 16 ch) by (unfold bits in *; change (2 ^ 15) with 32768 in *; change (2 ^ 16) with 65536; lia).
  assert (Hss' : bits 16 ss) by (unfold bits in *; change (2 ^ 15) with 32768 in *; change (2 ^ 16) with 65536; lia).
  set (fs := [s32 (36 + blen sp); c; serialize_bytes 0 6; be_bytes 2 1; serialize_bytes 0 8; be_bytes 2 ch; be_bytes 2 ss; be_bytes 2 0; be_bytes 2 0; s32 (Z.shiftl sr 16); sp]).
  assert (E : serialize (W_audio c ch ss sr sp) = Ok (concat fs)).
  { cbn [serialize size]. unfold fourcc. rewrite name_id by exact Hc. rewrite (u16_is ch Hch'), (u16_is ss Hss'). unfold fs. rewrite <- join_oks. reflexivity. }
  place W E P Sz.
  assert (L : forall k m, blen (concat (firstn k (skipn 2 fs))) = m -> blen (concat (firstn (S (S k)) fs)) = 8 + m).
  { intros k m <-. unfold fs. cbn [firstn skipn concat]. rewrite !blen_app, Hc. change (blen (s32 _)) with 4. lia. }
  split.
  - exact (at16 _ _ fs 3 1 14 _ P eq_refl (L 1%nat 6 eq_refl) ltac:(unfold bits; cbn; lia) eq_refl).
  - unfold audio_at.
    rewrite (at16s _ _ fs 5 ch 24 _ P eq_refl (L 3%nat 16 eq_refl) Hch eq_refl). cbn [bind].
    rewrite (at16s _ _ fs 6 ss 26 _ P eq_refl (L 4%nat 18 eq_refl) Hss eq_refl). cbn [bind].
    rewrite (at32 _ _ fs 9 _ 32 _ P eq_refl (L 7%nat 24 eq_refl) R1 eq_refl). cbn [bind]. rewrite R2. reflexivity.
Qed.
Example C80_audio_partial_case : let b := W_audio (bstr "mp4a") 2 16 48000 [] in written (within_file b) 3 b 36 /\ blen (bstr "mp4a") = 4 /\ bits 15 2 /\ bits 15 16 /\ bits 16 48000.
Proof.
  cbv zeta. split; [in_place (W_audio (bstr "mp4a") 2 16 48000 [])|]. unfold bits. repeat constructor; vm_compute; congruence.
Qed.

Lemma C80_avc_pf : forall data o n profile compat level sps pps, written data o (W_avcC profile compat level sps pps) n ->
  bits 8 profile -> bits 8 compat -> bits 8 level -> bits 16 (blen sps) -> bits 16 (blen pps) ->
  u32_at data o = Ok n /\ avcc_at data o n = Ok (mk_avcc 1 profile compat level 1 sps 1 pps).
Proof.
  intros data o n p c l s q W Hp Hc Hl Hs Hq. pose proof Hs as Hs0. pose proof Hq as Hq0. unfold bits in Hs0, Hq0. change (2 ^ 16) with 65536 in *.
  set (fs := [s32 (19 + blen s + blen q); bstr "avcC"; s8 1; s8 p; s8 c; s8 l; s8 255; s8 225; be_bytes 2 (blen s); s; s8 1; be_bytes 2 (blen q); q]).
  assert (E : serialize (W_avcC p c l s q) = Ok (concat fs)).
  { cbn [serialize size]. rewrite (u16_is _ Hs), (u16_is _ Hq). unfold fs. rewrite <- join_oks. reflexivity. }
  place W E P Sz.
  assert (L : n = 19 + blen s + blen q).
  { rewrite Sz. unfold fs. cbn [concat]. rewrite !blen_app. repeat change (blen (s8 _)) with 1. repeat change (blen (s32 _)) with 4.
    change (blen (be_bytes 2 (blen s))) with 2. change (blen (be_bytes 2 (blen q))) with 2. change (blen (bstr "avcC")) with 4. change (blen []) with 0. 
    change (blen (s8 1)) with 1. change (blen (s8 p)) with 1. change (blen (s8 c)) with 1. change (blen (s8 l)) with 1. change (blen (s8 255)) with 1. change (blen (s8 225)) with 1. lia. }
  split.
  - rewrite (at32 _ _ fs 0 (19 + blen s + blen q) 0 _ P eq_refl eq_refl) by (try reflexivity; unfold bits; change (2 ^ 32) with 4294967296; lia). rewrite L. reflexivity.
  - unfold avcc_at. rewrite (tail_slice _ _ fs 2 8 _ P eq_refl Sz). unfold fs. cbn [skipn concat].
    repeat (rewrite send_f by (try reflexivity; lia); cbn [bind]).
    change (be_val (s8 1)) with 1. change (be_val (s8 225)) with 225. change (Z.to_nat (Z.land 225 31)) with 1%nat. cbn [parameter_sets].
    rewrite send_f by (try reflexivity; lia). cbn [bind]. rewrite b16v by exact Hs. rewrite send_z. cbn [bind].
    rewrite send_f by (try reflexivity; lia). cbn [bind]. change (be_val (s8 1)) with 1. change (Z.to_nat (Z.land 1 31)) with 1%nat. cbn [parameter_sets].
    rewrite send_f by (try reflexivity; lia). cbn [bind]. rewrite b16v by exact Hq. rewrite send_z. cbn [bind].
    rewrite !s8v by assumption. rewrite !app_nil_r. reflexivity.
Qed.
Example C80_avc_case : let b := W_avcC 100 0 40 [103; 100] [104] in written (within_file b) 3 b 22 /\ bits 8 100 /\ bits 8 0 /\ bits 8 40 /\ bits 16 (blen [103; 100]) /\ bits 16 (blen [104]).
Proof.
  cbv zeta. split; [in_place (W_avcC 100 0 40 [103; 100] [104])|]. unfold bits. repeat constructor; vm_compute; congruence.
Qed.

Lemma dlen : forall k x rest, 0 <= x < 128 -> descriptor_len (S k) 0 (s8 x ++ rest) = Ok (x, rest).
Proof.
  intros k x rest H. cbn [descriptor_len]. rewrite send_f by (try reflexivity; lia). cbn [bind]. rewrite s8v by (unfold bits; change (2 ^ 8) with 256; lia).
  change (Z.shiftl 0 7) with 0. rewrite Z.lor_0_l. change 127 with (Z.ones 7). rewrite Z.land_ones by lia. change (2 ^ 7) with 128. rewrite Z.mod_small by exact H.
  replace (Z.land x 128) with 0; [reflexivity|]. symmetry. change 128 with (2 ^ 7). apply Z.bits_inj'. intros m Hm. rewrite Z.land_spec, Z.bits_0, Z.pow2_bits_eqb by lia.
  destruct (Z.eqb_spec 7 m); [|apply andb_false_r]. subst. rewrite andb_true_r. rewrite Z.testbit_eqb by lia. rewrite Z.div_small by (change (2 ^ 7) with 128; lia). reflexivity.
Qed.

Lemma C80_decoder_partial_pf : forall data o n config, written data o (W_esds config) n -> blen config < 105 ->
  u32_at data o = Ok n /\ esds_at data o n = Ok (mk_esds (Some 1) (Some (64, 21)) (Some config)).
Proof.
  intros data o n c W Hc. pose proof (blen_nonneg c).
  set (fs := [s32 (37 + blen c); bstr "esds"; s32 0; s8 3; s8 (23 + blen c); s8 0; s8 1; s8 0; s8 4; s8 (15 + blen c); s8 64; s8 21; s8 0; s8 0; s32 0; s32 0; s8 0;
              s8 5; s8 (blen c); c; s8 6; s8 1; s8 2]).
  assert (E : serialize (W_esds c) = Ok (concat fs)).
  { transitivity (join_bytes (map Ok [s32 (37 + blen c); bstr "esds"; s32 0; s8 3; s8 (23 + blen c); be_bytes 2 1; s8 0; s8 4; s8 (15 + blen c); s8 64; s8 21; s8 0; s8 0; s8 0; s32 0; s32 0;
              s8 5; s8 (blen c); c; s8 6; s8 1; s8 2])); [reflexivity|]. rewrite join_oks. reflexivity. }
  place W E P Sz.
  assert (L : n = 37 + blen c).
  { rewrite Sz. unfold fs.
    change (concat _) with (concat [s32 (37 + blen c); bstr "esds"; s32 0; s8 3; s8 (23 + blen c); s8 0; s8 1; s8 0; s8 4; s8 (15 + blen c); s8 64; s8 21; s8 0; s8 0; s32 0; s32 0; s8 0;
              s8 5; s8 (blen c)] ++ (c ++ [6; 1; 2])). rewrite !blen_app. change (blen [6; 1; 2]) with 3.
    change (blen (concat _)) with 34. lia. }
  split.
  - rewrite (at32 _ _ fs 0 (37 + blen c) 0 _ P eq_refl eq_refl) by (try reflexivity; unfold bits; change (2 ^ 32) with 4294967296; lia). rewrite L. reflexivity.
  - unfold esds_at. rewrite (tail_slice _ _ fs 2 8 _ P eq_refl Sz). cbv zeta. set (fuel := List.length (concat (skipn 2 fs))). unfold fs. cbn [skipn concat].
    do 2 (rewrite send_f by (try reflexivity; lia); cbn [bind]). change (be_val (s8 3)) with 3. cbn [Z.eqb Pos.eqb negb].
    rewrite dlen by lia. cbn [bind]. do 4 (rewrite send_f by (try reflexivity; lia); cbn [bind]). change (be_val (s8 4)) with 4. cbn [Z.eqb Pos.eqb negb].
    rewrite dlen by lia. cbn [bind]. do 8 (rewrite send_f by (try reflexivity; lia); cbn [bind]). change (be_val (s8 5)) with 5. cbn [Z.eqb Pos.eqb negb].
    rewrite dlen by lia. cbn [bind]. rewrite send_z. cbn [bind]. reflexivity.
Qed.
Example C80_decoder_partial_case : let b := W_esds [17; 144] in written (within_file b) 3 b 39 /\ blen [17; 144] < 105.
Proof.
  cbv zeta. split; [in_place (W_esds [17; 144])|]. unfold bits. repeat constructor; vm_compute; congruence.
Qed.

Lemma C80_entries_pf : forall data o n boxes, written data o (W_stsd boxes) n -> bits 32 (llen boxes) -> stsd_count data o = Ok (llen boxes).
Proof.
  intros data o n l W Hl. destruct W as (pre & out & post & E & D & Ho & Hn). cbn [serialize] in E.
  match type of E with join_bytes (_ ++ [_; _; ?g]) = _ => destruct g as [k|] eqn:G end; cbn in E; [|discriminate].
  unfold stsd_count. apply (at32 data o [s32 (size (W_stsd l)); bstr "stsd"; s32 0; s32 (llen l); k] 3 _ 12); try assumption; try reflexivity.
  exists pre, post. split; [|exact Ho]. rewrite D. inversion E. cbn [concat]. reflexivity.
Qed.
Example C80_entries_case : let b := W_stsd [W_wvtt; W_wvtt] in written (within_file b) 3 b 76 /\ bits 32 2.
Proof.
  cbv zeta. split; [in_place (W_stsd [W_wvtt; W_wvtt])|]. unfold bits. repeat constructor; vm_compute; congruence.
Qed.

Lemma C80_sizes_pf : forall data o n default l, written data o (W_saiz default l) n -> bits 8 default -> Forall (bits 8) l -> bits 32 n ->
  u32_at data o = Ok n /\ saiz_count data o = Ok (llen l) /\
  (l = [] -> default <> 0 -> forall i, saiz_size data o i = Ok default) /\
  (forall i x, nth_error l i = Some x -> saiz_size data o (Z.of_nat i) = Ok x).
Proof.
  intros data o n d l W Hd Hl Hn. set (d' := match l with [] => d | _ => 0 end).
  set (h := [s32 (17 + llen l); bstr "saiz"; s32 0; s8 d'; s32 (llen l)]).
  assert (E : serialize (W_saiz d l) = Ok (concat (h ++ map s8 l))).
  { rewrite <- (join_table _ (fun x => [u8 x]) s8) by (intros; reflexivity). rewrite flat_single. unfold h, d'. destruct l; reflexivity. }
  place W E P Sz. assert (L8 : forall x, In x l -> blen (s8 x) = 1) by reflexivity.
  assert (L : n = 17 + llen l).
  { rewrite Sz, concat_app, blen_app, (rows_len _ s8 1) by exact L8. change (blen (concat h)) with 17. lia. }
  assert (Hk : bits 32 (llen l)) by (unfold bits in *; unfold llen in *; lia).
  assert (F : full_at data o = Ok (0, 0)) by (apply (at_full _ _ _ 2 0 0 P eq_refl eq_refl); lia).
  assert (D : saiz_default data o = Ok d').
  { unfold saiz_default. rewrite F. cbn [bind]. apply (at8 _ _ _ 3 d' 12 _ P eq_refl eq_refl); [|unfold aux_offset; cbn; lia]. unfold d', bits in *. destruct l; [exact Hd|cbn; lia]. }
  split; [|split; [|split]].
  - rewrite (at32 _ _ _ 0 (17 + llen l) 0 _ P eq_refl eq_refl) by (rewrite <- ?L; auto; lia). rewrite L. reflexivity.
  - unfold saiz_count. rewrite F. cbn [bind]. apply (at32 _ _ _ 4 _ 13 _ P eq_refl eq_refl Hk). unfold aux_offset. cbn. lia.
  - intros -> Hz i. unfold saiz_size. rewrite D. unfold d'. cbn [bind]. destruct (Z.eqb_spec d 0); [contradiction|reflexivity].
  - intros i x Hx. unfold saiz_size. rewrite D. cbn [bind]. unfold d'. destruct l as [|y l0] eqn:El; [destruct i; discriminate|]. rewrite <- El in *. cbn [Z.eqb negb].
    rewrite F. cbn [bind]. destruct (row_of _ s8 1 h l i x) as [R1 R2]; [exact L8|exact Hx|].
    apply (at8 _ _ _ _ x _ _ P R1 R2).
    + rewrite Forall_forall in Hl. apply Hl. eapply nth_error_In. exact Hx.
    + change (blen (concat h)) with 17. unfold aux_offset. cbn [Z.eqb]. lia.
Qed.
Example C80_sizes_case : let b := W_saiz 0 [8; 16; 8] in written (within_file b) 3 b 20 /\ bits 8 0 /\ Forall (bits 8) [8; 16; 8] /\ bits 32 20.
Proof.
  cbv zeta. split; [in_place (W_saiz 0 [8; 16; 8])|]. unfold bits. repeat constructor; vm_compute; congruence.
Qed.

Lemma C80_offset_pf : forall data o n offset, written data o (W_saio offset) n -> bits 32 offset ->
  u32_at data o = Ok n /\ saio_count data o = Ok 1 /\ saio_offset data o 0 = Ok offset.
Proof.
  intros data o n x W Hx. assert (E : serialize (W_saio x) = Ok (concat [s32 20; bstr "saio"; s32 0; s32 1; s32 x])) by oks. place W E P Sz. subst n.
  assert (F : full_at data o = Ok (0, 0)) by (apply (at_full _ _ _ 2 0 0 P eq_refl eq_refl); lia).
  split; [|split].
  - rewrite (at32 _ _ _ 0 20 0 _ P eq_refl eq_refl) by (unfold bits; cbn; lia). reflexivity.
  - unfold saio_count. rewrite F. cbn [bind]. apply (at32 _ _ _ 3 1 12 _ P eq_refl eq_refl); [unfold bits; cbn; lia|]. unfold aux_offset. cbn. lia.
  - unfold saio_offset. rewrite F. cbn [bind Z.eqb]. apply (at32 _ _ _ 4 x 16 _ P eq_refl eq_refl Hx). lia.
Qed.
Example C80_offset_case : let b := W_saio 120 in written (within_file b) 3 b 20 /\ bits 32 120.
Proof.
  cbv zeta. split; [in_place (W_saio 120)|]. unfold bits. repeat constructor; vm_compute; congruence.
Qed.

Lemma C80_groups_partial_pf : forall data o n type l, written data o (W_sgpd type l) n -> bits 32 type -> bits 32 n ->
  Forall (fun g => bits 7 (sg_iv_size g) /\ blen (sg_kid g) = 16) l ->
  u32_at data o = Ok n /\ be_val (grouping_type data o) = type /\ sgpd_entries data o = Ok (llen l) /\
  (forall i g, nth_error l i = Some g -> sgpd_entry data o n (Z.of_nat i) = Ok (if sg_encrypted g then 1 else 0, sg_iv_size g, sg_kid g)) /\
  (forall i, llen l < i -> sgpd_entry data o n i = Ok (0, 0, [])).
Proof.
  intros data o n t l W Ht Hn Hl.
  set (parts := fun g : sgpd_group => [s8 0; s8 0; s8 (if sg_encrypted g then 1 else 0); s8 (sg_iv_size g); sg_kid g]).
  set (h := [s32 (20 + 20 * llen l); bstr "sgpd"; s32 0; s32 t; s32 (llen l)]).
  assert (E : serialize (W_sgpd t l) = Ok (concat (h ++ map (fun g => concat (parts g)) l))).
  { rewrite <- (join_table _ group_fields (fun g => concat (parts g))) by (intros; rewrite <- join_oks; reflexivity). reflexivity. }
  place W E P Sz.
  assert (L20 : forall g, In g l -> blen (concat (parts g)) = 20).
  { intros g Hg. rewrite Forall_forall in Hl. destruct (Hl g Hg) as [_ K]. unfold parts. cbn [concat]. rewrite !blen_app, K, app_nil_r || rewrite !blen_app, K.
    change (blen (s8 0)) with 1. change (blen (s8 _)) with 1. change (blen (s8 (sg_iv_size g))) with 1. change (blen []) with 0. lia. }
  assert (L : n = 20 + 20 * llen l).
  { rewrite Sz, concat_app, blen_app, (rows_len _ _ 20) by exact L20. change (blen (concat h)) with 20. lia. }
  assert (Hk : bits 32 (llen l)) by (unfold bits in *; unfold llen in *; lia).
  assert (F : full_at data o = Ok (0, 0)) by (apply (at_full _ _ _ 2 0 0 P eq_refl eq_refl); lia).
  split; [|split; [|split; [|split]]].
  - rewrite (at32 _ _ _ 0 (20 + 20 * llen l) 0 _ P eq_refl eq_refl) by (rewrite <- ?L; auto; lia). rewrite L. reflexivity.
  - unfold grouping_type. rewrite (field_slice _ _ _ 3 (s32 t) 12 _ _ P eq_refl eq_refl) by (try reflexivity; change (blen (s32 t)) with 4; lia). apply s32v. exact Ht.
  - unfold sgpd_entries. rewrite F. cbn [bind Z.eqb]. apply (at32 _ _ _ 4 _ 16 _ P eq_refl eq_refl Hk). lia.
  - intros i g Hg. unfold sgpd_entry. rewrite F. cbn [bind Z.eqb]. destruct (row_of _ (fun g => concat (parts g)) 20 h l i g) as [R1 R2]; [exact L20|exact Hg|].
    pose proof (inner _ _ _ _ (parts g) _ P R1 R2) as Q. change (blen (concat h)) with 20 in Q.
    assert (I : (i < List.length l)%nat) by (apply nth_error_Some; congruence).
    destruct (Z.ltb_spec n (20 + 0 + 20 * Z.of_nat i)) as [B|B]; [exfalso; unfold llen in L; lia|].
    rewrite Forall_forall in Hl. destruct (Hl g (nth_error_In _ _ Hg)) as [V K].
    assert (X : bslice (o + (20 + 0 + 20 * Z.of_nat i)) (o + (20 + 0 + 20 * Z.of_nat i) + 3) data = [0; 0; if sg_encrypted g then 1 else 0]).
    { destruct Q as (pre & post & -> & Q). replace (o + (20 + 0 + 20 * Z.of_nat i)) with (blen pre) by lia. unfold parts. cbn [concat]. rewrite <- !app_assoc.
      replace (s8 0 ++ s8 0 ++ s8 (if sg_encrypted g then 1 else 0) ++ s8 (sg_iv_size g) ++ sg_kid g ++ [] ++ post) with
        ([0; 0; if sg_encrypted g then 1 else 0] ++ (s8 (sg_iv_size g) ++ sg_kid g ++ [] ++ post)) by (destruct (sg_encrypted g); reflexivity).
      apply bslice_mid. reflexivity. }
    rewrite X. replace (str_to_sint32 (0 :: [0; 0; if sg_encrypted g then 1 else 0])) with (@Ok Z (if sg_encrypted g then 1 else 0)) by (destruct (sg_encrypted g); reflexivity). cbn [bind].
    rewrite (at8s _ _ _ 3 (sg_iv_size g) 3 _ Q eq_refl eq_refl V) by lia. cbn [bind].
    rewrite (field_slice _ _ _ 4 (sg_kid g) 4 _ _ Q eq_refl eq_refl) by (rewrite ?K; lia). reflexivity.
  - intros i Hi. unfold sgpd_entry. rewrite F. cbn [bind Z.eqb]. destruct (Z.ltb_spec n (20 + 0 + 20 * i)); [reflexivity|lia].
Qed.
Example C80_groups_partial_case : let b := W_sgpd 1936025959 [mk_sgpd_group true 8 (repeat 5 16%nat)] in written (within_file b) 3 b 40 /\ bits 32 1936025959 /\ bits 32 40 /\ Forall (fun g => bits 7 (sg_iv_size g) /\ blen (sg_kid g) = 16) [mk_sgpd_group true 8 (repeat 5 16%nat)].
Proof.
  cbv zeta. split; [in_place (W_sgpd 1936025959 [mk_sgpd_group true 8 (repeat 5 16%nat)])|]. unfold bits. repeat constructor; vm_compute; congruence.
Qed.

Lemma words_of_rows : forall l, Forall (bits 64) l -> words_of 8 (List.length l) (concat (map (be_bytes 8) l)) = l.
Proof.
  induction l as [|x l IH]; intros H; [reflexivity|]. inversion H; subst. cbn [List.length map concat].
  change (words_of 8 (S (List.length l)) (be_bytes 8 x ++ concat (map (be_bytes 8) l))) with
    (be_val (be_bytes 8 x) :: words_of 8 (List.length l) (concat (map (be_bytes 8) l))).
  rewrite IH, b64v by assumption. reflexivity.
Qed.

Lemma C80_vectors_partial_pf : forall data o n iv_size l, written data o (W_senc iv_size l) n ->
  (forall s, In s l -> bits 64 (se_iv s) /\ (se_subsamples s = None \/ se_subsamples s = Some [])) -> bits 32 (llen l) ->
  senc_at data o = Ok (map se_iv l).
Proof.
  intros data o n iv l W H Hk.
  assert (F0 : senc_flags l = 0).
  { unfold senc_flags. replace (existsb some_subsamples l) with false; [reflexivity|]. symmetry. apply not_true_is_false. intros X. apply existsb_exists in X as (s & Hs & X).
    destruct (H s Hs) as [_ [K|K]]; unfold some_subsamples in X; rewrite K in X; discriminate. }
  set (h := [s32 (size (W_senc iv l)); bstr "senc"; s32 0; s32 (llen l)]).
  assert (E : serialize (W_senc iv l) = Ok (concat (h ++ map (fun s => be_bytes 8 (se_iv s)) l))).
  { rewrite <- (join_table _ (senc_fields 0) (fun s => be_bytes 8 (se_iv s))); [cbn [serialize]; rewrite F0; reflexivity|].
    intros s Hs. unfold senc_fields. rewrite u64_is by apply (H s Hs). reflexivity. }
  place W E P Sz.
  unfold senc_at. rewrite (at_full _ _ _ 2 0 0 P eq_refl eq_refl) by lia. cbn [bind].
  rewrite (at32 _ _ _ 3 (llen l) 12 _ P eq_refl eq_refl Hk eq_refl). cbn [bind].
  assert (X : bslice (o + 16) (o + 16 + llen l * 8) data = concat (map (fun s => be_bytes 8 (se_iv s)) l)).
  { pose proof (tail_slice _ _ _ 4 16 _ P eq_refl eq_refl) as T. change (skipn 4 (h ++ map (fun s => be_bytes 8 (se_iv s)) l)) with (map (fun s => be_bytes 8 (se_iv s)) l) in T.
    rewrite <- T. f_equal. rewrite concat_app, blen_app, (rows_len _ _ 8) by reflexivity. change (blen (concat h)) with 16. lia. }
  unfold words_at. rewrite X, (rows_len _ _ 8) by reflexivity. rewrite (Z.mul_comm 8), Z.eqb_refl. f_equal. change (Z.to_nat 8) with 8%nat. unfold llen. rewrite Nat2Z.id.
  rewrite <- (map_map se_iv (be_bytes 8)), <- (map_length se_iv l). apply words_of_rows. apply Forall_forall. intros x Hx. apply in_map_iff in Hx as (s & <- & Hs). apply (H s Hs).
Qed.
Example C80_vectors_partial_case : let b := W_senc 8 [mk_senc_sample 77 None; mk_senc_sample 78 (Some [])] in written (within_file b) 3 b 32 /\ bits 64 77 /\ bits 64 78 /\ bits 32 2.
Proof.
  cbv zeta. split; [in_place (W_senc 8 [mk_senc_sample 77 None; mk_senc_sample 78 (Some [])])|]. unfold bits. repeat constructor; vm_compute; congruence.
Qed.

Definition ref_ok (r : sidx_ref) : Prop :=
  bits 1 (sr_type r) /\ bits 31 (sr_size r) /\ bits 32 (sr_duration r) /\ bits 1 (sr_starts r) /\ bits 3 (sr_sap r) /\ bits 28 (sr_delta r).
Definition as_read (r : sidx_ref) : reference := mk_reference (sr_type r =? 1) (sr_size r) (sr_duration r) (sr_starts r) (sr_sap r) (sr_delta r).
Definition ref_parts (r : sidx_ref) : list bytes :=
  [s32 (Z.shiftl (sr_type r) 31 + sr_size r); s32 (sr_duration r); s32 (Z.shiftl (sr_starts r) 31 + Z.shiftl (sr_sap r) 28 + sr_delta r)].
Lemma word_split : forall a b k, 0 <= k -> 0 <= b < 2 ^ k -> Z.shiftr (Z.shiftl a k + b) k = a /\ Z.land (Z.shiftl a k + b) (Z.ones k) = b.
Proof.
  intros a b k K B. rewrite Z.land_ones, Z.shiftr_div_pow2, Z.shiftl_mul_pow2 by lia. split.
  - rewrite Z.div_add_l, (Z.div_small b) by lia. lia.
  - rewrite Z.add_comm, Z.mod_add by lia. apply Z.mod_small. lia.
Qed.
Lemma land_small : forall x k, 0 <= k -> 0 <= x < 2 ^ k -> Z.land x (Z.ones k) = x.
Proof. intros. rewrite Z.land_ones by lia. apply Z.mod_small. lia. Qed.
Lemma references_read : forall l rest, Forall ref_ok l -> references (List.length l) (concat (map (fun r => concat (ref_parts r)) l) ++ rest) = Ok (map as_read l).
Proof.
  induction l as [|r l IH]; intros rest H; [reflexivity|]. inversion H as [|? ? (B1 & B2 & B3 & B4 & B5 & B6) Hl]; subst. cbn [List.length references map concat].
  unfold ref_parts at 1. cbn [concat]. rewrite <- !app_assoc. cbn [app].
  do 3 (rewrite send_f by (try reflexivity; lia); cbn [bind]). rewrite IH by exact Hl. cbn [bind].
  unfold bits in *. change (2 ^ 1) with 2 in *.
  destruct (word_split (sr_type r) (sr_size r) 31) as [S1 S2]; [lia|lia|].
  assert (R1 : bits 32 (Z.shiftl (sr_type r) 31 + sr_size r)).
  { unfold bits. rewrite Z.shiftl_mul_pow2 by lia. change (2 ^ 31) with 2147483648 in *. change (2 ^ 32) with 4294967296. lia. }
  set (w3 := Z.shiftl (sr_starts r) 31 + Z.shiftl (sr_sap r) 28 + sr_delta r).
  assert (C3 : w3 = Z.shiftl (sr_starts r) 31 + (Z.shiftl (sr_sap r) 28 + sr_delta r)) by (unfold w3; lia).
  assert (C4 : w3 = Z.shiftl (Z.shiftl (sr_starts r) 3 + sr_sap r) 28 + sr_delta r).
  { unfold w3. rewrite !Z.shiftl_mul_pow2 by lia. change (2 ^ 31) with (2 ^ 3 * 2 ^ 28). lia. }
  assert (R3 : bits 32 w3).
  { unfold bits, w3. rewrite !Z.shiftl_mul_pow2 by lia. change (2 ^ 31) with 2147483648 in *. change (2 ^ 28) with 268435456 in *. change (2 ^ 3) with 8 in *. change (2 ^ 32) with 4294967296. lia. }
  destruct (word_split (sr_starts r) (Z.shiftl (sr_sap r) 28 + sr_delta r) 31) as [S3 _]; [lia| |].
  { rewrite !Z.shiftl_mul_pow2 by lia. change (2 ^ 31) with 2147483648 in *. change (2 ^ 28) with 268435456 in *. change (2 ^ 3) with 8 in *. lia. }
  destruct (word_split (Z.shiftl (sr_starts r) 3 + sr_sap r) (sr_delta r) 28) as [S4 S5]; [lia|lia|].
  destruct (word_split (sr_starts r) (sr_sap r) 3) as [_ S6]; [lia|lia|].
  rewrite <- C3 in S3. rewrite <- C4 in S4, S5.
  rewrite !s32v by (first [exact R1|exact R3|exact B3]). unfold as_read.
  change 2147483647 with (Z.ones 31). change 268435455 with (Z.ones 28). change 7 with (Z.ones 3). change 1 with (Z.ones 1) at 1 2.
  rewrite S1, S2, S3, S4, S5, S6. rewrite !land_small by (change (2 ^ 1) with 2; lia).
  assert (T : negb (sr_type r =? 0) = (sr_type r =? 1)) by (destruct (Z.eqb_spec (sr_type r) 0); destruct (Z.eqb_spec (sr_type r) 1); try reflexivity; lia).
  rewrite T. reflexivity.
Qed.

Lemma C80_index_partial_pf : forall data o n id timescale earliest version l, written data o (W_sidx id timescale earliest version l) n ->
  (version = 0 /\ bits 32 earliest \/ version = 1 /\ bits 64 earliest) -> bits 32 id -> bits 32 timescale -> bits 16 (llen l) ->
  Forall (fun r => bits 1 (sr_type r) /\ bits 31 (sr_size r) /\ bits 32 (sr_duration r) /\ bits 1 (sr_starts r) /\ bits 3 (sr_sap r) /\ bits 28 (sr_delta r)) l ->
  u32_at data o = Ok n /\
  sidx_at data o n = Ok (mk_sidx id timescale earliest 0 (map (fun r => mk_reference (sr_type r =? 1) (sr_size r) (sr_duration r) (sr_starts r) (sr_sap r) (sr_delta r)) l)).
Proof.
  intros data o n id ts ea v l W V Hid Hts Hk Hl.
  change (Forall ref_ok l) in Hl. change (map _ l) with (map as_read l).
  set (wide := fun x => if v =? 0 then s32 x else be_bytes 8 x).
  set (h := [s32 (32 + 8 * v + 12 * llen l); bstr "sidx"; s32 (v * 16777216 + 0); s32 id; s32 ts; wide ea; wide 0; be_bytes 2 0; be_bytes 2 (llen l)]).
  assert (E : serialize (W_sidx id ts ea v l) = Ok (concat (h ++ map (fun r => concat (ref_parts r)) l))).
  { transitivity (Ok (concat ([s32 (32 + 8 * v + 12 * llen l); bstr "sidx"; s8 v; be_bytes 2 0; s8 0; s32 id; s32 ts; wide ea; wide 0; be_bytes 2 0; be_bytes 2 (llen l)] ++
        map (fun r => concat (ref_parts r)) l))).
    - rewrite <- (join_table _ ref_fields (fun r => concat (ref_parts r))) by (intros; rewrite <- join_oks; reflexivity). cbn [serialize size].
      rewrite (u16_is _ Hk). destruct V as [[-> V]|[-> V]]; unfold wide; cbn [Z.eqb]; [|rewrite (u64_is _ V)]; reflexivity.
    - rewrite !concat_app. f_equal. f_equal. unfold h. destruct V as [[-> V]|[-> V]]; reflexivity. }
  place W E P Sz.
  assert (L12 : forall r, In r l -> blen (concat (ref_parts r)) = 12) by reflexivity.
  assert (Lw : forall x, blen (wide x) = 4 + 4 * v) by (intros x; unfold wide; destruct V as [[-> V]|[-> V]]; reflexivity).
  assert (L : n = 32 + 8 * v + 12 * llen l).
  { rewrite Sz, concat_app, blen_app, (rows_len _ _ 12) by exact L12. destruct V as [[-> V]|[-> V]]; [change (blen (concat h)) with 32|change (blen (concat h)) with 40]; lia. }
  assert (Hk0 : 0 <= llen l < 65536) by exact Hk.
  split.
  - rewrite (at32 _ _ _ 0 (32 + 8 * v + 12 * llen l) 0 _ P eq_refl eq_refl) by (try lia; unfold bits; change (2 ^ 32) with 4294967296; lia). rewrite L. reflexivity.
  - unfold sidx_at. rewrite (at_full _ _ _ 2 v 0 P eq_refl eq_refl) by lia. cbn [bind].
    rewrite (tail_slice _ _ _ 3 12 _ P eq_refl Sz). unfold h. cbn [skipn app concat].
    do 2 (rewrite send_f by (try reflexivity; lia); cbn [bind]).
    assert (Ew : (if v =? 0 then 4 else 8) = 4 + 4 * v) by (destruct V as [[-> V]|[-> V]]; reflexivity). rewrite Ew.
    do 2 (rewrite send_f by (first [apply Lw|lia]); cbn [bind]). do 2 (rewrite send_f by (try reflexivity; lia); cbn [bind]).
    rewrite !s32v, b16v by assumption. unfold llen. rewrite Nat2Z.id. rewrite <- (app_nil_r (concat (map _ l))). rewrite references_read by exact Hl. cbn [bind].
    assert (We : be_val (wide ea) = ea) by (unfold wide; destruct V as [[-> V]|[-> V]]; cbn [Z.eqb]; [apply s32v|apply b64v]; exact V).
    assert (W0 : be_val (wide 0) = 0) by (unfold wide; destruct V as [[-> V]|[-> V]]; reflexivity).
    rewrite We, W0. reflexivity.
Qed.
Example C80_index_partial_case : let b := W_sidx 1 90000 17000000000 1 [mk_sidx_ref 0 5000 180000 1 1 0; mk_sidx_ref 1 6000 180000 0 2 3] in written (within_file b) 3 b 64 /\ bits 64 17000000000 /\ bits 32 1 /\ bits 32 90000 /\ bits 16 2 /\ Forall (fun r => bits 1 (sr_type r) /\ bits 31 (sr_size r) /\ bits 32 (sr_duration r) /\ bits 1 (sr_starts r) /\ bits 3 (sr_sap r) /\ bits 28 (sr_delta r)) [mk_sidx_ref 0 5000 180000 1 1 0; mk_sidx_ref 1 6000 180000 0 2 3].
Proof.
  cbv zeta. split; [in_place (W_sidx 1 90000 17000000000 1 [mk_sidx_ref 0 5000 180000 1 1 0; mk_sidx_ref 1 6000 180000 0 2 3])|]. unfold bits. repeat constructor; vm_compute; congruence.
Qed.

Lemma brands_read : forall l rest, Forall (fun b => blen b = 4) l -> send_brands (List.length l) (concat l ++ rest) = Ok l.
Proof.
  induction l as [|b l IH]; intros rest H; [reflexivity|]. inversion H; subst. cbn [List.length send_brands concat]. rewrite <- app_assoc.
  rewrite send_n by (unfold blen in *; lia). cbn [bind]. rewrite IH by assumption. reflexivity.
Qed.

Lemma C80_brands_pf : forall data o n styp major minor brands, written data o (W_ftyp styp major minor brands) n -> blen major = 4 -> bits 32 minor ->
  Forall (fun b => blen b = 4) brands -> bits 32 n ->
  u32_at data o = Ok n /\ ftyp_at data o n = Ok (major, minor, brands).
Proof.
  intros data o n st mj mi l W Hm Hi Hl Hn.
  set (h := [s32 (16 + 4 * llen l); bstr (if st then "styp" else "ftyp")%string; mj; s32 mi]).
  assert (E : serialize (W_ftyp st mj mi l) = Ok (concat (h ++ map (fun x => x) l))).
  { rewrite <- (join_table _ (fun x => [fourcc x]) (fun x => x)).
    - rewrite flat_single. cbn [serialize size]. unfold fourcc at 2. rewrite name_id by exact Hm. unfold h. destruct st; reflexivity.
    - intros x Hx. rewrite Forall_forall in Hl. unfold fourcc. rewrite name_id by (apply Hl; exact Hx). cbn. rewrite app_nil_r. reflexivity. }
  place W E P Sz. rewrite map_id in P, Sz.
  assert (Lt : blen (bstr (if st then "styp" else "ftyp")%string) = 4) by (destruct st; reflexivity).
  assert (L : n = 16 + 4 * llen l).
  { rewrite Sz, concat_app, blen_app. rewrite <- (map_id l) at 1. rewrite (rows_len _ (fun x => x) 4) by (apply Forall_forall; exact Hl).
    unfold h. cbn [concat]. rewrite !blen_app, Hm, Lt. change (blen (s32 mi)) with 4. change (blen (s32 _)) with 4. change (blen []) with 0. lia. }
  assert (L2 : blen (concat (firstn 2 (h ++ l))) = 8) by (unfold h; cbn [firstn app concat]; rewrite !blen_app, Lt; reflexivity).
  split.
  - rewrite (at32 _ _ _ 0 (16 + 4 * llen l) 0 _ P eq_refl eq_refl) by (rewrite <- ?L; auto; lia). rewrite L. reflexivity.
  - unfold ftyp_at. rewrite (tail_slice _ _ _ 2 8 _ P L2 Sz). unfold h. cbn [skipn app concat].
    rewrite send_n by (unfold blen in Hm; lia). cbn [bind]. rewrite send_f by (try reflexivity; lia). cbn [bind]. rewrite s32v by exact Hi.
    replace ((n - 16) / 4) with (llen l) by (rewrite L; replace (16 + 4 * llen l - 16) with (llen l * 4) by lia; symmetry; apply Z.div_mul; lia).
    unfold llen. rewrite Nat2Z.id. rewrite <- (app_nil_r (concat l)), brands_read by exact Hl. reflexivity.
Qed.
Example C80_brands_case : let b := W_ftyp true (bstr "cmfs") 0 [bstr "iso9"; bstr "dash"] in written (within_file b) 3 b 24 /\ blen (bstr "cmfs") = 4 /\ bits 32 0 /\ Forall (fun b => blen b = 4) [bstr "iso9"; bstr "dash"] /\ bits 32 24.
Proof.
  cbv zeta. split; [in_place (W_ftyp true (bstr "cmfs") 0 [bstr "iso9"; bstr "dash"])|]. unfold bits. repeat constructor; vm_compute; congruence.
Qed.

Lemma C80_cue_pf : forall data o n text, written data o (W_payl text) n -> bits 32 n -> u32_at data o = Ok n /\ payl_at data o n = encode_utf8 text.
Proof.
  intros data o n t W Hn. pose proof (blen_nonneg (encode_utf8 t)).
  assert (E : serialize (W_payl t) = Ok (concat [s32 (8 + blen (encode_utf8 t)); bstr "payl"; encode_utf8 t])) by oks. place W E P Sz.
  assert (L : n = 8 + blen (encode_utf8 t)).
  { rewrite Sz. cbn [concat]. rewrite !blen_app. change (blen (s32 _)) with 4. change (blen (bstr "payl")) with 4. change (blen []) with 0. lia. }
  split.
  - rewrite (at32 _ _ _ 0 _ 0 _ P eq_refl eq_refl) by (rewrite <- ?L; auto; lia). rewrite L. reflexivity.
  - unfold payl_at. rewrite (tail_slice _ _ _ 2 8 _ P eq_refl Sz). cbn [skipn concat]. apply app_nil_r.
Qed.
Example C80_cue_case : let b := W_payl "Hello" in written (within_file b) 3 b 13 /\ bits 32 13.
Proof.
  cbv zeta. split; [in_place (W_payl "Hello")|]. unfold bits. repeat constructor; vm_compute; congruence.
Qed.

(** ** What is not read as it was written *)
Lemma C80_width_refuted_pf : exists data width, bits 16 width /\ written data 0 (W_visual (bstr "avc1") width 1080 (W_avcC 100 0 40 [] [])) 105 /\
  exists r, avcx_at data 0 = Ok r /\ av_width r < 0.
Proof.
  exists (bytes_of (W_visual (bstr "avc1") 40000 1080 (W_avcC 100 0 40 [] []))), 40000. split; [unfold bits; cbn; lia|]. split.
  - exists [], (bytes_of (W_visual (bstr "avc1") 40000 1080 (W_avcC 100 0 40 [] []))), []. vm_compute. repeat split; reflexivity.
  - eexists. split; [vm_compute; reflexivity|]. vm_compute. reflexivity.
Qed.
Lemma C80_rate_refuted_pf : exists data, written data 0 (W_audio (bstr "mp4a") 2 16 96000 []) 36 /\ audio_at data 0 = Ok (2, 16, 30464).
Proof.
  exists (bytes_of (W_audio (bstr "mp4a") 2 16 96000 [])). split; [|vm_compute; reflexivity].
  exists [], (bytes_of (W_audio (bstr "mp4a") 2 16 96000 [])), []. vm_compute. repeat split; reflexivity.
Qed.
Lemma C80_decoder_refuted_pf : exists data config n, written data 0 (W_esds config) n /\ blen config = 105 /\
  forall r, esds_at data 0 n = Ok r -> es_type r <> Some (64, 21) \/ es_cfg r <> Some config.
Proof.
  exists (bytes_of (W_esds (repeat 7 105%nat))), (repeat 7 105%nat), 142. split; [|split; [reflexivity|]].
  - exists [], (bytes_of (W_esds (repeat 7 105%nat))), []. vm_compute. repeat split; reflexivity.
  - intros r H. left. vm_compute in H. inversion H; subst. discriminate.
Qed.
Lemma C80_sample_groups_refuted_pf : exists data n, written data 0 (W_sbgp [(5, 1)]) n /\ sbgp_entries data 0 = Ok 5 /\ group_entry data 0 n 0 <> Ok (5, 1).
Proof.
  exists (bytes_of (W_sbgp [(5, 1)])), 24. split; [|split].
  - exists [], (bytes_of (W_sbgp [(5, 1)])), []. vm_compute. repeat split; reflexivity.
  - vm_compute. reflexivity.
  - vm_compute. discriminate.
Qed.
Lemma C80_vectors_refuted_pf : exists data n l, written data 0 (W_senc 8 l) n /\ l = [mk_senc_sample 77 (Some [(16, 100)]); mk_senc_sample 78 (Some [(16, 100)])] /\
  exists v, senc_at data 0 = Ok v /\ v <> map se_iv l.
Proof.
  set (l := [mk_senc_sample 77 (Some [(16, 100)]); mk_senc_sample 78 (Some [(16, 100)])]).
  exists (bytes_of (W_senc 8 l)), 48, l. split; [|split; [reflexivity|]].
  - exists [], (bytes_of (W_senc 8 l)), []. vm_compute. repeat split; reflexivity.
  - eexists. split; [vm_compute; reflexivity|]. vm_compute. discriminate.
Qed.
Lemma C80_group_outside_refuted_pf : exists data n l, written data 3 (W_sgpd 1936025959 l) n /\ sgpd_entry data 3 n (llen l) <> Ok (0, 0, []).
Proof.
  exists (within_file (W_sgpd 1936025959 [mk_sgpd_group true 8 (repeat 5 16%nat)])), 40, [mk_sgpd_group true 8 (repeat 5 16%nat)]. split.
  - in_place (W_sgpd 1936025959 [mk_sgpd_group true 8 (repeat 5 16%nat)]).
  - vm_compute. discriminate.
Qed.
