(** Init segments (C37, C61). *)
From Coq Require Import ZifyBool ZifyNat.
From Verif Require Import Base BaseProofs BytesModel BytesProofs BoxSpec Mp4Model Mp4Proofs InitModel InitSpec InitProofs MediaProofs MediaProofs2.
Open Scope Z_scope.

Definition zp (t p : bytes) : bytes :=
  match duration_at t p with
  | Some (o, n) => btake o p ++ repeat 0 (Z.to_nat n) ++ bdrop (o + n) p
  | None => p
  end.
Lemma duration_bounds : forall t p o n, duration_at t p = Some (o, n) -> 0 < o /\ 0 < n.
Proof.
  intros t p o n H. unfold duration_at in H. destruct (_ || _); [|destruct (bytes_eqb t (bstr "tkhd")); [|discriminate]];
    destruct (version1 p); injection H as <- <-; lia.
Qed.
Lemma blen_repeat : forall n (x : Z), 0 <= n -> blen (repeat x (Z.to_nat n)) = n.
Proof. intros. unfold blen. rewrite repeat_length. lia. Qed.
Lemma zp_len : forall t p, header_ok t p -> blen (zp t p) = blen p.
Proof.
  intros t p [_ H]. unfold zp. destruct (duration_at t p) as [[o n]|] eqn:E; [|reflexivity].
  apply duration_bounds in E. rewrite !blen_app, blen_repeat, blen_btake, blen_bdrop by lia. lia.
Qed.
Lemma version_take : forall p q o, 0 < o -> btake o p = btake o q -> version1 p = version1 q.
Proof.
  intros p q o O H. unfold btake in H. destruct (Z.to_nat o) eqn:E; [lia|]. destruct p, q; cbn in *; congruence.
Qed.
Lemma take_zp : forall o n p, 0 < o -> 0 < n -> o + n <= blen p -> btake o (btake o p ++ repeat 0 (Z.to_nat n) ++ bdrop (o + n) p) = btake o p.
Proof. intros. apply btake_len'. rewrite blen_btake by lia. lia. Qed.
Lemma zp_duration : forall t p, header_ok t p -> duration_at t (zp t p) = duration_at t p.
Proof.
  intros t p [_ H]. unfold zp. destruct (duration_at t p) as [[o n]|] eqn:E; [|auto].
  assert (B := duration_bounds _ _ _ _ E).
  assert (V := version_take _ _ o (proj1 B) (take_zp o n p (proj1 B) (proj2 B) H)).
  unfold duration_at in *. rewrite V. auto.
Qed.
Lemma zp_spec : forall t p, header_ok t p -> live_payload t p (zp t p).
Proof.
  intros t p OK. assert (L := zp_len t p OK). unfold live_payload. unfold zp in *.
  destruct OK as [_ H]. destruct (duration_at t p) as [[o n]|] eqn:E; [|reflexivity].
  apply duration_bounds in E. split; [auto|]. split; [apply take_zp; lia|]. split.
  - rewrite bslice_len'; [|rewrite blen_btake by lia; lia|rewrite blen_repeat; lia].
    apply Forall_forall. intros x I. apply repeat_spec in I. auto.
  - rewrite app_assoc. apply bdrop_len'. rewrite blen_app, blen_btake, blen_repeat by lia. lia.
Qed.
Lemma zeros : forall b, Forall (fun x => x = 0) b -> b = repeat 0 (List.length b).
Proof. induction 1; [reflexivity|]. cbn [List.length repeat]. congruence. Qed.
Lemma live_zp : forall t p q, header_ok t p -> live_payload t p q -> q = zp t p.
Proof.
  intros t p q [_ H] L. unfold live_payload, zp in *. destruct (duration_at t p) as [[o n]|] eqn:E; [|auto].
  apply duration_bounds in E. destruct L as (L & A & B & C). rewrite <- A, <- C.
  rewrite <- (bslice_split o (o + n) q) at 1 by lia. f_equal. f_equal.
  rewrite (zeros _ B). f_equal. assert (X := blen_bslice o (o + n) q ltac:(lia) ltac:(lia)). unfold blen in X. lia.
Qed.
Lemma zp_idem : forall t p, header_ok t p -> zp t (zp t p) = zp t p.
Proof.
  intros t p OK. assert (D := zp_duration t p OK). assert (L := zp_len t p OK). unfold zp at 1. rewrite D.
  unfold zp in *. destruct OK as [_ H]. destruct (duration_at t p) as [[o n]|] eqn:E; [|reflexivity].
  apply duration_bounds in E. rewrite take_zp by lia. f_equal. f_equal. rewrite app_assoc. apply bdrop_len'.
  rewrite blen_app, blen_btake, blen_repeat by lia. lia.
Qed.
Lemma zp_ok : forall t p, header_ok t p -> header_ok t (zp t p).
Proof.
  intros t p OK. assert (D := zp_duration t p OK). assert (L := zp_len t p OK). destruct OK as [U H]. split; [auto|].
  rewrite D, L. exact H.
Qed.

Lemma zero_enc : forall h p o n, blen h = 8 -> 0 <= o -> 0 <= n ->
  zero_at (8 + o) n (h ++ p) = h ++ btake o p ++ repeat 0 (Z.to_nat n) ++ bdrop (o + n) p.
Proof.
  intros h p o n H O N. unfold zero_at. rewrite (take_hdr h p H) by lia. rewrite (drop_hdr h p H) by lia.
  replace (8 + o - 8) with o by lia. replace (8 + o + n - 8) with (o + n) by lia. rewrite <- app_assoc. reflexivity.
Qed.
Lemma byte8_version : forall h p, blen h = 8 -> p <> [] -> exists v, byte_at 8 (h ++ p) = Ok v /\ (v =? 1) = version1 p.
Proof.
  intros h p H N. destruct p as [|v p]; [congruence|]. exists v. split; [apply byte8; auto|reflexivity].
Qed.
Definition lupd (t p : bytes) (st : Z) : Z :=
  if bytes_eqb t (bstr "mvhd") then (if version1 p then field 20 4 p else field 12 4 p) else st.
Lemma live_leaf_ok : forall t p st, box_ok (fc_composite live_class) header_ok (Leaf t p) ->
  process_leaf live_class t (enc (Leaf t p)) st = Ok (enc (Leaf t (zp t p)), lupd t p st).
Proof.
  intros t p st (T & _ & _ & OK). assert (L := zp_len t p OK). destruct OK as [U H].
  unfold process_leaf. rewrite U. cbn [live_class fc_method].
  rewrite !enc_leaf. rewrite L. assert (HL := hdr_len (8 + blen p) t T).
  set (h := be32 (8 + blen p) ++ t) in *. clearbody h.
  unfold l_method, zp, lupd, duration_at in *.
  destruct (bytes_eqb t (bstr "mvhd")) eqn:E1.
  { cbn [orb] in *. assert (N : p <> []) by (intros ->; destruct (version1 []); cbn in H; lia).
    unfold l_mvhd. destruct (byte8_version h p HL N) as (v & -> & V). cbn [bind]. rewrite V. destruct (version1 p).
    - rewrite (slice_hdr h p HL) by lia. rewrite u32_ok by (rewrite blen_bslice; lia). cbn [bind].
      change 32 with (8 + 24) at 1. rewrite zero_enc by lia. reflexivity.
    - rewrite (slice_hdr h p HL) by lia. rewrite u32_ok by (rewrite blen_bslice; lia). cbn [bind].
      change 24 with (8 + 16) at 1. rewrite zero_enc by lia. reflexivity. }
  destruct (bytes_eqb t (bstr "tkhd")) eqn:E2.
  { assert (E3 : bytes_eqb t (bstr "mdhd") = false).
    { apply bytes_eqb_neq. apply bytes_eqb_eq in E2. subst t. discriminate. }
    rewrite E3 in *. cbn [orb] in *. assert (N : p <> []) by (intros ->; destruct (version1 []); cbn in H; lia).
    unfold l_tkhd. destruct (byte8_version h p HL N) as (v & -> & V). cbn [bind]. rewrite V. destruct (version1 p).
    - change 36 with (8 + 28). rewrite zero_enc by lia. reflexivity.
    - change 28 with (8 + 20) at 1. rewrite zero_enc by lia. reflexivity. }
  destruct (bytes_eqb t (bstr "mdhd")) eqn:E3; [|reflexivity].
  cbn [orb] in *. assert (N : p <> []) by (intros ->; destruct (version1 []); cbn in H; lia).
  unfold l_mdhd. destruct (byte8_version h p HL N) as (v & -> & V). cbn [bind]. rewrite V. destruct (version1 p).
  - change 32 with (8 + 24) at 1. rewrite zero_enc by lia. reflexivity.
  - change 24 with (8 + 16) at 1. rewrite zero_enc by lia. reflexivity.
Qed.
Lemma live_run : forall l, boxes_ok movie_containers header_ok l ->
  init_live (encs l) = Ok (encs (map (rp_top live_class zp) l)).
Proof.
  intros l OK. unfold init_live.
  destruct (replacer live_class header_ok zp lupd ltac:(reflexivity) live_leaf_ok zp_len l (-1) OK ltac:(reflexivity)) as [s E].
  rewrite E. reflexivity.
Qed.
Lemma top_moov : forall b, bytes_in (btype b) (fc_top live_class) = bytes_eqb (btype b) (bstr "moov").
Proof. intros. cbn [live_class fc_top]. unfold bytes_in. cbn [existsb]. apply orb_false_r. Qed.
Lemma rp_live : forall b, box_ok movie_containers header_ok b -> live_box b (rp_box zp b).
Proof.
  induction b as [t p|t ks IH] using box_ind2; intros OK.
  - constructor. apply zp_spec. apply OK.
  - rewrite rp_node. constructor. apply box_ok_node in OK. destruct OK as (_ & _ & _ & OK).
    induction ks as [|k ks IHk]; [constructor|]. inversion IH; subst. destruct OK. cbn [map]. constructor; auto.
Qed.
Lemma live_rp : forall b c, box_ok movie_containers header_ok b -> live_box b c -> c = rp_box zp b.
Proof.
  induction b as [t p|t ks IH] using box_ind2; intros c OK L.
  - inversion L; subst. cbn [rp_box]. f_equal. apply live_zp; [apply OK|auto].
  - inversion L as [|? ? m F]; subst. rewrite rp_node. f_equal. apply box_ok_node in OK. destruct OK as (_ & _ & _ & OK). clear L.
    revert m F. induction ks as [|k ks IHk]; intros m F; inversion F; subst; [reflexivity|]. inversion IH; subst. destruct OK.
    cbn [map]. f_equal; auto.
Qed.

(** ** C37 *)
(** The live init segment exists, is the VoD one with zero durations in movie,
    track and media headers and every other byte unchanged, and is as long. *)
Lemma C37_live_pf : forall l, boxes_ok movie_containers header_ok l ->
  exists m, init_live (encs l) = Ok (encs m) /\ live_init l m /\ blen (encs m) = blen (encs l).
Proof.
  intros l OK. exists (map (rp_top live_class zp) l). split; [apply live_run; auto|]. split.
  - unfold live_init. clear - OK. induction l as [|b l IH]; [constructor|]. destruct OK as [O1 O2]. cbn [map]. constructor; [|auto].
    unfold live_top, rp_top. rewrite top_moov. destruct (bytes_eqb (btype b) (bstr "moov")); [apply rp_live; auto|reflexivity].
  - apply (rp_top_len live_class header_ok zp zp_len); auto.
Qed.
(** "Zero durations, all else unchanged" leaves one possibility only. *)
Lemma C37_determined_pf : forall l m m', boxes_ok movie_containers header_ok l -> live_init l m -> live_init l m' -> m = m'.
Proof.
  intros l m m' OK A B.
  assert (K : forall m, live_init l m -> m = map (rp_top live_class zp) l).
  { clear - OK. unfold live_init. induction l as [|b l IH]; intros m H; inversion H; subst; [reflexivity|]. destruct OK as [O1 O2].
    cbn [map]. f_equal; [|auto]. unfold live_top in H2. unfold rp_top. rewrite top_moov.
    destruct (bytes_eqb (btype b) (bstr "moov")); [apply live_rp; auto|auto]. }
  rewrite (K m A), (K m' B). reflexivity.
Qed.
(** A live init segment is left alone. *)
Lemma C37_idempotent_pf : forall l b, boxes_ok movie_containers header_ok l -> init_live (encs l) = Ok b -> init_live b = Ok b.
Proof.
  intros l b OK H. rewrite live_run in H by auto. injection H as <-. rewrite live_run.
  - f_equal. f_equal. apply (rp_tops_idem live_class header_ok zp l zp_idem OK).
  - apply (rp_tops_ok live_class header_ok zp zp_len l zp_ok OK).
Qed.

(** An example: ftyp, a version 1 movie header and a track with version 0
    headers. *)
Definition ex_init : list box :=
  [Leaf (bstr "ftyp") (bstr "iso6");
   Node (bstr "moov")
     [Leaf (bstr "mvhd") ([1; 0; 0; 0] ++ repeat 7 16 ++ [0; 0; 3; 232] ++ repeat 9 8 ++ [5; 5; 5; 5]);
      Node (bstr "trak")
        [Leaf (bstr "tkhd") ([0; 0; 0; 7] ++ repeat 1 8 ++ [0; 0; 0; 2] ++ repeat 0 4 ++ [1; 2; 3; 4] ++ repeat 6 8);
         Node (bstr "mdia")
           [Leaf (bstr "mdhd") ([0; 0; 0; 0] ++ repeat 1 8 ++ [0; 1; 95; 144] ++ [9; 9; 9; 9] ++ [85; 196; 0; 0]);
            Leaf (bstr "hdlr") ([0; 0; 0; 0; 0; 0; 0; 0] ++ bstr "vide" ++ repeat 0 12);
            Leaf (bstr "minf") [1; 2; 3]]];
      Node (bstr "mvex") [Leaf (bstr "trex") ([0; 0; 0; 0; 0; 0; 0; 2; 0; 0; 0; 1; 0; 0; 3; 232; 0; 0; 0; 0; 1; 1; 0; 0])]]].
Lemma ex_init_ok : boxes_ok movie_containers header_ok ex_init.
Proof.
  apply (proj2 (boxes_ok_Forall _ _ _)). unfold ex_init.
  repeat (constructor; [|]); try constructor; cbn; unfold header_ok; cbn; intuition discriminate.
Qed.
Example C37_case : boxes_ok movie_containers header_ok ex_init /\
  exists b, init_live (encs ex_init) = Ok b /\ b <> encs ex_init.
Proof. split; [apply ex_init_ok|]. eexists. split; [vm_compute; reflexivity|]. vm_compute. discriminate. Qed.

(** ** C61 *)
Definition iupd (t p : bytes) (st : istate) : result istate :=
  if bytes_eqb t (bstr "hdlr") then Ok (mk_istate (is_timescale st) (is_track_id st) (Some (bslice 8 12 p)) (is_trex st))
  else if bytes_eqb t (bstr "tkhd") then
    match is_track_id st with
    | Some _ => Err "AssertionError"
    | None => Ok (mk_istate (is_timescale st) (Some (track_id p)) (is_handler st) (is_trex st))
    end
  else if bytes_eqb t (bstr "mdhd") then Ok (mk_istate (field 12 4 p) (is_track_id st) (is_handler st) (is_trex st))
  else if bytes_eqb t (bstr "trex") then
    Ok (mk_istate (is_timescale st) (is_track_id st) (is_handler st) (Some (field 8 4 p, field 12 4 p, field 16 4 p, field 20 4 p)))
  else Ok st.
Lemma init_leaf_ok : forall t p st, box_ok (fc_composite init_class) reader_ok (Leaf t p) ->
  process_leaf init_class t (enc (Leaf t p)) st = let* st1 := iupd t p st in Ok (enc (Leaf t p), st1).
Proof.
  intros t p st (T & _ & _ & (U & H1 & H2 & H3)).
  unfold process_leaf. rewrite U. cbn [init_class fc_method].
  rewrite !enc_leaf. assert (HL := hdr_len (8 + blen p) t T).
  set (h := be32 (8 + blen p) ++ t) in *. clearbody h.
  unfold i_method, iupd.
  destruct (bytes_eqb t (bstr "hdlr")) eqn:E1.
  { unfold i_hdlr. rewrite (slice_hdr h p HL) by lia. reflexivity. }
  destruct (bytes_eqb t (bstr "tkhd")) eqn:E2.
  { apply bytes_eqb_eq in E2. destruct (H1 E2) as (r & P). unfold i_tkhd. destruct (is_track_id st); [reflexivity|].
    destruct P as [[-> L]|[-> L]]; rewrite byte8 by auto; cbn [bind Z.eqb]; rewrite (slice_hdr h _ HL) by lia;
      rewrite u32_ok by (rewrite blen_bslice; lia); reflexivity. }
  destruct (bytes_eqb t (bstr "mdhd")) eqn:E3.
  { apply bytes_eqb_eq in E3. assert (L : 16 <= blen p) by (specialize (H2 E3); destruct (version1 p); lia).
    unfold i_mdhd. rewrite (slice_hdr h _ HL) by lia. rewrite u32_ok by (rewrite blen_bslice; lia). reflexivity. }
  destruct (bytes_eqb t (bstr "trex")) eqn:E4; [|reflexivity].
  apply bytes_eqb_eq in E4. specialize (H3 E4). unfold i_trex.
  rewrite !(slice_hdr h _ HL) by lia. rewrite !u32_ok by (rewrite blen_bslice; lia). reflexivity.
Qed.
Lemma init_top : forall l, top_leaves init_class l = movie_leaves l.
Proof.
  intros l. unfold top_leaves, movie_leaves. apply flat_map_ext. intros b. cbn [init_class fc_top]. unfold bytes_in. cbn [existsb].
  rewrite orb_false_r. reflexivity.
Qed.
Lemma init_run : forall l, boxes_ok movie_containers reader_ok l ->
  init_filter (encs l) = let* st := read_all iupd (movie_leaves l) istate0 in Ok (encs l, st).
Proof.
  intros l OK. unfold init_filter. rewrite (reader init_class reader_ok iupd ltac:(reflexivity) init_leaf_ok) by auto.
  rewrite init_top. destruct (read_all iupd (movie_leaves l) istate0); reflexivity.
Qed.
Definition lasts {A} (f : bytes -> A) (l : list bytes) (d : A) : A := fold_left (fun _ p => f p) l d.
Lemma of_cons : forall t x l, of_type t (x :: l) = if bytes_eqb (fst x) t then snd x :: of_type t l else of_type t l.
Proof. intros. unfold of_type. cbn [filter]. destruct (bytes_eqb (fst x) t); reflexivity. Qed.
Lemma read_init : forall l st st', read_all iupd l st = Ok st' ->
  is_timescale st' = lasts (field 12 4) (of_type (bstr "mdhd") l) (is_timescale st) /\
  is_track_id st' = lasts (fun p => Some (track_id p)) (of_type (bstr "tkhd") l) (is_track_id st) /\
  is_handler st' = lasts (fun p => Some (bslice 8 12 p)) (of_type (bstr "hdlr") l) (is_handler st) /\
  is_trex st' = lasts (fun p => Some (field 8 4 p, field 12 4 p, field 16 4 p, field 20 4 p)) (of_type (bstr "trex") l) (is_trex st).
Proof.
  induction l as [|[t p] l IH]; intros st st' H; [injection H as <-; repeat split|].
  cbn [read_all fst snd] in H. destruct (iupd t p st) as [s1|] eqn:E; [|discriminate]. cbn [bind] in H. apply IH in H.
  destruct H as (-> & -> & -> & ->). rewrite !of_cons. cbn [fst snd]. unfold iupd in E.
  destruct (bytes_eqb t (bstr "hdlr")) eqn:E1.
  { apply bytes_eqb_eq in E1. subst t. injection E as <-. repeat split. }
  destruct (bytes_eqb t (bstr "tkhd")) eqn:E2.
  { apply bytes_eqb_eq in E2. subst t. destruct (is_track_id st); [discriminate|]. injection E as <-. repeat split. }
  destruct (bytes_eqb t (bstr "mdhd")) eqn:E3.
  { apply bytes_eqb_eq in E3. subst t. injection E as <-. repeat split. }
  destruct (bytes_eqb t (bstr "trex")) eqn:E4.
  { apply bytes_eqb_eq in E4. subst t. injection E as <-. repeat split. }
  injection E as <-. repeat split.
Qed.
Lemma read_init_ok : forall l st,
  (List.length (of_type (bstr "tkhd") l) <= match is_track_id st with None => 1 | Some _ => 0 end)%nat ->
  exists st', read_all iupd l st = Ok st'.
Proof.
  induction l as [|[t p] l IH]; intros st H; [eexists; reflexivity|].
  rewrite of_cons in H. cbn [fst snd] in H. cbn [read_all fst snd]. unfold iupd at 1.
  destruct (bytes_eqb t (bstr "hdlr")) eqn:E1.
  { apply bytes_eqb_eq in E1. subst t. cbn [bind]. apply IH. exact H. }
  destruct (bytes_eqb t (bstr "tkhd")) eqn:E2.
  { destruct (is_track_id st); cbn [List.length] in H; [lia|]. cbn [bind]. apply IH. cbn [is_track_id]. lia. }
  destruct (bytes_eqb t (bstr "mdhd")); [|destruct (bytes_eqb t (bstr "trex"))]; cbn [bind]; apply IH; exact H.
Qed.
Lemma read_init_many : forall l st, (match is_track_id st with None => 1 | Some _ => 0 end < List.length (of_type (bstr "tkhd") l))%nat ->
  read_all iupd l st = Err "AssertionError".
Proof.
  induction l as [|[t p] l IH]; intros st H; [cbn in H; lia|].
  rewrite of_cons in H. cbn [fst snd] in H. cbn [read_all fst snd]. unfold iupd at 1.
  destruct (bytes_eqb t (bstr "hdlr")) eqn:E1.
  { apply bytes_eqb_eq in E1. subst t. cbn [bind]. apply IH. exact H. }
  destruct (bytes_eqb t (bstr "tkhd")) eqn:E2.
  { destruct (is_track_id st); cbn [List.length] in H; [reflexivity|]. cbn [bind]. apply IH. cbn [is_track_id]. lia. }
  destruct (bytes_eqb t (bstr "mdhd")); [|destruct (bytes_eqb t (bstr "trex"))]; cbn [bind]; apply IH; exact H.
Qed.

(** Reading an init segment with one track: the track id, the handler, the
    sample defaults and (version 0 media header) the time scale, and the bytes
    are left alone. *)
Lemma C61_one_track_pf : forall l tk md hd tx, boxes_ok movie_containers reader_ok l ->
  of_type (bstr "tkhd") (movie_leaves l) = [tk] -> of_type (bstr "mdhd") (movie_leaves l) = [md] ->
  of_type (bstr "hdlr") (movie_leaves l) = [hd] -> of_type (bstr "trex") (movie_leaves l) = [tx] ->
  exists st, init_filter (encs l) = Ok (encs l, st) /\
    is_track_id st = Some (track_id tk) /\
    (version1 md = false -> is_timescale st = media_timescale md) /\
    is_handler st = Some (bslice 8 12 hd) /\
    is_trex st = Some (field 8 4 tx, field 12 4 tx, field 16 4 tx, field 20 4 tx).
Proof.
  intros l tk md hd tx OK A B C D. rewrite init_run by auto.
  destruct (read_init_ok (movie_leaves l) istate0) as [st E]; [rewrite A; cbn; lia|].
  exists st. rewrite E. split; [reflexivity|]. apply read_init in E. rewrite A, B, C, D in E. destruct E as (E1 & E2 & E3 & E4).
  split; [exact E2|]. split; [|split; [exact E3|exact E4]]. intros V. unfold media_timescale. rewrite V. exact E1.
Qed.
Example C61_one_track_case : boxes_ok movie_containers reader_ok ex_init /\
  exists st, init_filter (encs ex_init) = Ok (encs ex_init, st) /\
    is_track_id st = Some 2 /\ is_timescale st = 90000 /\ is_handler st = Some (bstr "vide") /\
    is_trex st = Some (1, 1000, 0, 16842752).
Proof.
  split.
  - apply (proj2 (boxes_ok_Forall _ _ _)). unfold ex_init.
    repeat (constructor; [|]); try constructor; cbn; unfold reader_ok; cbn; intuition (try discriminate);
    first [solve [eexists; left; split; [reflexivity|discriminate]] | solve [auto]].
  - eexists. vm_compute. repeat split.
Qed.
(** Several tracks are refused. *)
Lemma C61_several_pf : forall l, boxes_ok movie_containers reader_ok l ->
  (2 <= List.length (of_type (bstr "tkhd") (movie_leaves l)))%nat -> init_filter (encs l) = Err "AssertionError".
Proof. intros l OK H. rewrite init_run by auto. rewrite read_init_many; [reflexivity|]. exact H. Qed.
Definition ex_tkhd : box := Leaf (bstr "tkhd") ([0; 0; 0; 7] ++ repeat 1 8 ++ [0; 0; 0; 2] ++ repeat 0 16).
Example C61_several_case : boxes_ok movie_containers reader_ok
    [Node (bstr "moov") [Node (bstr "trak") [ex_tkhd]; Node (bstr "trak") [ex_tkhd]]] /\
  (2 <= List.length (of_type (bstr "tkhd") (movie_leaves [Node (bstr "moov") [Node (bstr "trak") [ex_tkhd]; Node (bstr "trak") [ex_tkhd]]])))%nat.
Proof.
  split.
  - apply (proj2 (boxes_ok_Forall _ _ _)).
    repeat (constructor; [|]); try constructor; cbn; unfold reader_ok; cbn; intuition (try discriminate);
    first [solve [eexists; left; split; [reflexivity|discriminate]] | solve [auto]].
  - vm_compute. auto.
Qed.
(** With a version 1 media header the time scale read is half of the
    modification time. *)
Definition ex_long : list box :=
  [Node (bstr "moov") [Node (bstr "trak") [Node (bstr "mdia")
    [Leaf (bstr "mdhd") ([1; 0; 0; 0] ++ repeat 0 12 ++ [0; 0; 0; 3] ++ [0; 1; 95; 144] ++ repeat 0 12)]]]].
Lemma C61_long_header_refuted_pf : exists l md st, boxes_ok movie_containers reader_ok l /\
  of_type (bstr "mdhd") (movie_leaves l) = [md] /\
  init_filter (encs l) = Ok (encs l, st) /\ media_timescale md = 90000 /\ is_timescale st = 0.
Proof.
  exists ex_long. eexists. eexists. split.
  - apply (proj2 (boxes_ok_Forall _ _ _)). unfold ex_long.
    repeat match goal with
      | |- Forall _ _ => constructor
      | |- box_ok _ _ _ => cbn [box_ok]
      | |- _ /\ _ => split
      | |- True => exact I
      end; try (unfold reader_ok; cbn; intuition (try discriminate); fail); try (vm_compute; intuition (try discriminate); fail).
  - split; [reflexivity|]. split; [vm_compute; reflexivity|]. split; reflexivity.
Qed.
