(** Statements about filtered media segments (C10 to C15, C36, C53). *)
From Coq Require Import Lqa ZifyBool ZifyNat.
From Verif Require Import Base BaseProofs BytesModel BytesProofs Mp4Model Mp4Proofs Mp4Term BoxSpec EmsgModel TtmlModel
  TimeModel MediaModel MediaSpec MediaProofs MediaProofs2 MediaProofs3 MediaProofs4 MediaProofs5 MediaProofs6
  MediaProofs7 MediaProofs8 ConfigModel ProxyModel ProxySpec ProxyTheory SegmentModel.
Open Scope Z_scope.

(** *** A concrete segment for the examples: styp, sidx, one fragment with
    tfhd, tfdt (32 bits), trun with data offset, saio, senc; five bytes of media. *)
Definition ex_mfhd (n : Z) : box := Leaf (bstr "mfhd") ([0;0;0;0] ++ be32 n).
Definition ex_tfhd : box := Leaf (bstr "tfhd") ([0;2;0;8] ++ be32 1 ++ be32 512).
Definition ex_tfdt0 (t : Z) : bytes := 0 :: [0;0;0] ++ be32 t.
Definition ex_trun (o : Z) : box := Leaf (bstr "trun") ([0;0;2;1] ++ be32 2 ++ s32 o ++ be32 3 ++ be32 2).
Definition ex_saio (a : Z) : box := Leaf (bstr "saio") (0 :: [0;0;0] ++ [] ++ be32 1 ++ List.concat (map be32 [a])).
Definition ex_frag (tfdt : bytes) (o a : Z) : fragment := mk_fragment
  [ex_mfhd 7] [ex_tfhd] tfdt [ex_trun o; ex_saio a; Leaf (bstr "senc") [9;8;7;6]] [].
Definition ex_pre : list box :=
  [Leaf (bstr "styp") (List.concat [bstr "lmsg"; bstr "msdh"; bstr "lmsg"; bstr "msix"]); Leaf (bstr "sidx") [1;2;3]].
Definition ex_f : fragment := ex_frag (ex_tfdt0 90000) 136 124.
Definition ex_l : list box := seg ex_pre ex_f [1;2;3;4;5] [].
Definition ex_p : mparams :=
  mk_mparams (Some 4711) 6 3600 true (Some 90000) 0 false None false false 0%Q.
(** offset 80000 s: the decode time needs more than 32 bits *)
Definition ex_pw : mparams :=
  mk_mparams (Some 4711) 6 80000 false (Some 90000) 0 false None true false 0%Q.

Ltac bytes_tac := intros _; repeat (constructor; [vm_compute; split; [discriminate|reflexivity]|]); constructor.
Ltac leaf_tac :=
  split; [|bytes_tac];
  first [ apply (L_mfhd [0;0;0;0]); reflexivity
        | apply (L_tfhd [0;2;0;8] (be32 1) [] (be32 512) [] []); reflexivity
        | apply (L_tfdt0 [0;0;0]); reflexivity
        | apply (L_tfdt1 1 [0;0;0]); [discriminate|reflexivity|reflexivity]
        | match goal with |- layout _ (_ :: _ ++ _ ++ _ ++ List.concat (map be32 ?es)) =>
            apply (L_saio0 [0;0;0] [] es); [reflexivity|reflexivity| |reflexivity] end;
          repeat (constructor; [vm_compute; split; [discriminate|reflexivity]|]); constructor
        | apply L_styp; repeat constructor
        | apply L_other; cbn [In]; intuition discriminate ].
Ltac seg_tac :=
  repeat match goal with
  | |- boxes_ok _ _ (_ :: _) => split
  | |- boxes_ok _ _ [] => exact I
  | |- box_ok _ _ (Node _ _) => apply box_ok_node; split; [reflexivity|]; split; [simpl; auto|]; split; [reflexivity|]
  | |- box_ok _ _ (Leaf _ _) => split; [reflexivity|]; split; [cbn; intuition discriminate|]; split; [reflexivity|]; leaf_tac
  end.
Example ex_l_ok : segment_ok ex_l.
Proof. unfold ex_l, seg, ex_pre, fr_moof, ex_f, ex_frag, segment_ok. cbn [app fr_a fr_k1 fr_k2 fr_b fr_tfdt].
 unfold ex_mfhd, ex_tfhd, ex_trun, ex_saio, ex_tfdt0. seg_tac. Qed.


Example ex_p_runs : exists l' st, media_filter ex_p (encs ex_l) = Ok (encs l', st) /\
  map btype l' = [bstr "styp"; bstr "moof"; bstr "mdat"].
Proof. 
  exists [Leaf (bstr "styp") (List.concat [bstr "msdh"; bstr "msix"; bstr "lmsg"]);
    fr_moof (mk_fragment [ex_mfhd 4711] [ex_tfhd] (ex_tfdt0 (90000 + 3600 * 90000)) (fr_k2 ex_f) []);
    Leaf (bstr "mdat") [1;2;3;4;5]].
  eexists. split; vm_compute; reflexivity.
Qed.

(** ** C10: the timeline is continuous *)
Lemma C10_continuous_pf : forall files c c2 n t1 t2 s1 s2 r rel d1 d2 now1 now2 (L : Z -> list box) (D dur : Z -> Z) o1 o2,
  wf_cfg c -> wf_cfg c2 -> media_request c n -> media_request c2 (n + 1) ->
  c_seg_dur c2 = c_seg_dur c -> c_vod_n c2 = c_vod_n c -> c_vod_first c2 = c_vod_first c ->
  c_ast c2 = c_ast c -> c_timeoffset c2 = c_timeoffset c -> c_start_nr c2 = c_start_nr c -> c_ext c2 = c_ext c ->
  (forall v, c_vod_first c <= v < c_vod_first c + c_vod_n c ->
     files rel v (c_ext c) = Ok (encs (L v)) /\ segment_ok (L v) /\ starts_at (L v) (D v)) ->
  (forall v, c_vod_first c <= v < c_vod_first c + c_vod_n c - 1 -> D (v + 1) = D v + dur v) ->
  D (c_vod_first c + c_vod_n c - 1) + dur (c_vod_first c + c_vod_n c - 1)
    = D (c_vod_first c) + c_seg_dur c * c_vod_n c * rep_timescale r ->
  get_media c t1 = Ok (Serve s1) -> get_media c2 t2 = Ok (Serve s2) ->
  filter_media_segment files c r rel s1 d1 now1 = Ok o1 ->
  filter_media_segment files c2 r rel s2 d2 now2 = Ok o2 ->
  exists l1 l2 T, o1 = encs l1 /\ o2 = encs l2 /\
    boxes_ok containers any_payload l1 /\ boxes_ok containers any_payload l2 /\
    starts_at l1 T /\ starts_at l2 (T + dur (sv_vod s1)).
Proof. exact continuous. Qed.

(** Two files per loop, five and seven seconds long; number 1000000001 uses the
    second one and the next number wraps to the first one. *)
Definition ex_vod2 : vodcfg := mkVod 1 2 6 300 [("video", mkMedia 90000 ["V1"] None None)]%string.
Definition ex_read2 (name : string) : result vodcfg := Ok ex_vod2.
Definition ex_url2 (nr : string) (now : Z) : result config :=
  process_url ex_read2 "http://h/livesim/" ["two"; "V1"; nr]%string now.
Definition ex_c1 : config := Eval vm_compute in
  match ex_url2 "1000000001.m4s" 6000000020 with Ok c => c | Err _ => config_init "" end.
Definition ex_c2 : config := Eval vm_compute in
  match ex_url2 "1000000002.m4s" 6000000020 with Ok c => c | Err _ => config_init "" end.
Definition ex_rep : rep := mkRep "V1" "video" 90000.
Definition ex_D (v : Z) : Z := if v =? 1 then 1000 else 451000.
Definition ex_dur (v : Z) : Z := if v =? 1 then 450000 else 630000.
Definition ex_L (v : Z) : list box := seg ex_pre (ex_frag (ex_tfdt0 (ex_D v)) 136 124) [1;2;3;4;5] [].
Definition ex_files : file_store := fun _ v _ => Ok (encs (ex_L v)).
Example ex_L_ok : forall v, segment_ok (ex_L v) /\ starts_at (ex_L v) (ex_D v).
Proof.
  intros v. split.
  - unfold ex_L, ex_D. destruct (v =? 1);
    unfold seg, ex_pre, fr_moof, ex_frag, segment_ok; cbn [app fr_a fr_k1 fr_k2 fr_b fr_tfdt];
    unfold ex_mfhd, ex_tfhd, ex_trun, ex_saio, ex_tfdt0; seg_tac.
  - exists (ex_tfdt0 (ex_D v)), []. split; [reflexivity|]. apply (DT0 [0;0;0]); [reflexivity|].
    unfold ex_D. destruct (v =? 1); lia.
Qed.
Example ex_wrap : exists s1 s2 o1 o2,
  get_media ex_c1 6000000020 = Ok (Serve s1) /\ get_media ex_c2 6000000020 = Ok (Serve s2) /\
  sv_vod s1 = 2 /\ sv_vod s2 = 1 /\ sv_offset s2 = 6000000012 /\
  filter_media_segment ex_files ex_c1 ex_rep "" s1 None 0 = Ok o1 /\
  filter_media_segment ex_files ex_c2 ex_rep "" s2 None 0 = Ok o2.
Proof. do 4 eexists. do 2 (split; [vm_compute; reflexivity|]). do 3 (split; [vm_compute; reflexivity|]). split; vm_compute; reflexivity. Qed.
Example ex_wrap_hyps : wf_cfg ex_c1 /\ wf_cfg ex_c2 /\ media_request ex_c1 1000000001 /\ media_request ex_c2 (1000000001 + 1) /\
  (forall v, c_vod_first ex_c1 <= v < c_vod_first ex_c1 + c_vod_n ex_c1 - 1 -> ex_D (v + 1) = ex_D v + ex_dur v) /\
  ex_D (c_vod_first ex_c1 + c_vod_n ex_c1 - 1) + ex_dur (c_vod_first ex_c1 + c_vod_n ex_c1 - 1)
    = ex_D (c_vod_first ex_c1) + c_seg_dur ex_c1 * c_vod_n ex_c1 * rep_timescale ex_rep.
Proof.
  split; [|split; [|split; [|split; [|split]]]].
  - constructor; try reflexivity; [exists 300; reflexivity|]. intros H. exfalso. apply H. reflexivity.
  - constructor; try reflexivity; [exists 300; reflexivity|]. intros H. exfalso. apply H. reflexivity.
  - constructor; try reflexivity; try discriminate.
  - constructor; try reflexivity; try discriminate.
  - change (c_vod_first ex_c1) with 1. change (c_vod_n ex_c1) with 2. intros v B. assert (v = 1) by lia. subst. reflexivity.
  - reflexivity.
Qed.

(** ** C11: fragment numbers *)
Lemma C11_number_pf : forall p n l out st,
  segment_ok l -> mp_seg_nr p = Some n -> media_filter p (encs l) = Ok (out, st) ->
  exists l', out = encs l' /\ boxes_ok containers any_payload l' /\
    Forall2 (fun a b => b = btake 4 a ++ be32 n) (mfhds l) (mfhds l') /\
    (mfhds l <> [] -> 0 <= n < 4294967296).
Proof. exact C11_lem. Qed.

Lemma C11_too_large_pf : forall p n l, segment_ok l -> mp_seg_nr p = Some n -> mfhds l <> [] ->
  ~ (0 <= n < 4294967296) -> exists e, media_filter p (encs l) = Err e /\ e <> "diverges"%string.
Proof.
  intros p n l OK SN M R. destruct (media_filter p (encs l)) as [[out st]|e] eqn:E.
  - exfalso. destruct (C11_lem _ _ _ _ _ OK SN E) as (l' & _ & _ & _ & X). auto.
  - exists e. split; auto. intros ->. eapply segment_stops; eauto.
Qed.
Example ex_numbers : mfhds ex_l = [[0;0;0;0] ++ be32 7] /\ mp_seg_nr ex_p = Some 4711 /\
  exists out st l', media_filter ex_p (encs ex_l) = Ok (out, st) /\ out = encs l' /\ mfhds l' = [[0;0;0;0] ++ be32 4711].
Proof.
  split; [reflexivity|]. split; [reflexivity|]. do 2 eexists.
  exists [Leaf (bstr "styp") (List.concat [bstr "msdh"; bstr "msix"; bstr "lmsg"]);
    fr_moof (mk_fragment [ex_mfhd 4711] [ex_tfhd] (ex_tfdt0 (90000 + 3600 * 90000)) (fr_k2 ex_f) []);
    Leaf (bstr "mdat") [1;2;3;4;5]].
  split; [vm_compute; reflexivity|]. split; vm_compute; reflexivity.
Qed.
Example ex_too_large : media_filter (mk_mparams (Some 4294967296) 6 0 false (Some 90000) 0 false None false false 0%Q)
  (encs ex_l) = Err "struct.error".
Proof. vm_compute. reflexivity. Qed.

(** ** C12: widening *)
Lemma C12_widening_pf : forall p ts pre f m post out st,
  segment_ok (seg pre f m post) -> mp_is_ttml p = false -> mp_timescale p = Some ts -> fr_plain f ->
  media_filter p (encs (seg pre f m post)) = Ok (out, st) ->
  exists A f' B t, out = encs (seg A f' m B) /\ boxes_ok containers any_payload (seg A f' m B) /\
    decode_time (fr_tfdt f) t /\ decode_time (fr_tfdt f') (t + mp_offset p * ts) /\
    (too_wide (mp_offset p * ts) (fr_tfdt f) ->
       blen (fr_tfdt f) = 8 /\ blen (fr_tfdt f') = 12 /\ blen (enc (fr_moof f')) = blen (enc (fr_moof f)) + 4) /\
    (~ too_wide (mp_offset p * ts) (fr_tfdt f) ->
       blen (fr_tfdt f') = blen (fr_tfdt f) /\ blen (enc (fr_moof f')) = blen (enc (fr_moof f))).
Proof. exact widening. Qed.

Lemma C12_data_offset_partial_pf : forall p ts pre f m post u vf cnt o rest v out st,
  segment_ok (seg pre f m post) -> mp_is_ttml p = false -> mp_timescale p = Some ts -> fr_plain f ->
  Forall (fun b => ~ moof b) pre \/ too_wide (mp_offset p * ts) (fr_tfdt f) ->
  fr_k2 f = u ++ Leaf (bstr "trun") (vf ++ cnt ++ s32 o ++ rest) :: v ->
  blen vf = 4 -> blen cnt = 4 -> Z.testbit (be_val vf) 0 = true -> -2147483648 <= o < 2147483648 ->
  blen (enc (fr_moof f)) <= o <= blen (enc (fr_moof f)) + 8 + blen m ->
  media_filter p (encs (seg pre f m post)) = Ok (out, st) ->
  exists A f' B u' v' o',
    out = encs (seg A f' m B) /\ boxes_ok containers any_payload (seg A f' m B) /\
    fr_k2 f' = u' ++ Leaf (bstr "trun") (vf ++ cnt ++ s32 o' ++ rest) :: v' /\
    List.length u' = List.length u /\ -2147483648 <= o' < 2147483648 /\
    bslice (blen (encs A) + o') (blen (encs A) + blen (enc (fr_moof f')) + 8 + blen m) out =
    bslice (blen (encs pre) + o) (blen (encs pre) + blen (enc (fr_moof f)) + 8 + blen m) (encs (seg pre f m post)).
Proof. exact C12_data_offset_lem. Qed.

Lemma C12_saio_partial_pf : forall p ts pre f m post u pl es v out st,
  segment_ok (seg pre f m post) -> mp_is_ttml p = false -> mp_timescale p = Some ts -> fr_plain f ->
  Forall (fun b => ~ moof b) pre \/ too_wide (mp_offset p * ts) (fr_tfdt f) ->
  fr_k2 f = u ++ Leaf (bstr "saio") pl :: v -> saio_entries pl es ->
  media_filter p (encs (seg pre f m post)) = Ok (out, st) ->
  exists A f' B u' pl' es' v',
    out = encs (seg A f' m B) /\ boxes_ok containers any_payload (seg A f' m B) /\
    fr_k2 f' = u' ++ Leaf (bstr "saio") pl' :: v' /\ List.length u' = List.length u /\
    saio_entries pl' es' /\
    Forall2 (fun e e' =>
      (forall x t q y j, fr_k2 f = x ++ Leaf t q :: y -> ~ In t special -> 0 <= j <= 8 + blen q ->
         blen t = 4 -> e = fr_pos f + blen (encs x) + j ->
         bslice (blen (encs A) + e') (blen (encs A) + e' + (8 + blen q - j)) out =
         bslice (blen (encs pre) + e) (blen (encs pre) + e + (8 + blen q - j)) (encs (seg pre f m post))) /\
      (blen (enc (fr_moof f)) <= e <= blen (enc (fr_moof f)) + 8 + blen m ->
         bslice (blen (encs A) + e') (blen (encs A) + blen (enc (fr_moof f')) + 8 + blen m) out =
         bslice (blen (encs pre) + e) (blen (encs pre) + blen (enc (fr_moof f)) + 8 + blen m) (encs (seg pre f m post))))
      es es'.
Proof. exact C12_saio_lem. Qed.

(** The example segment meets the hypotheses; 80000 s later the time is too wide. *)
Example ex_widening : fr_plain ex_f /\ Forall (fun b => ~ moof b) ex_pre /\
  too_wide (mp_offset ex_pw * 90000) (fr_tfdt ex_f) /\ ~ too_wide (mp_offset ex_p * 90000) (fr_tfdt ex_f) /\
  fr_k2 ex_f = [] ++ Leaf (bstr "trun") ([0;0;2;1] ++ be32 2 ++ s32 136 ++ be32 3 ++ be32 2) ::
    [ex_saio 124; Leaf (bstr "senc") [9;8;7;6]] /\
  blen (enc (fr_moof ex_f)) + 8 = 136 /\
  124 = fr_pos ex_f + blen (encs [ex_trun 136; ex_saio 124]) + 8 /\
  (exists out st, media_filter ex_pw (encs ex_l) = Ok (out, st)).
Proof.
  split; [|split; [|split; [|split; [|split; [|split; [|split]]]]]]; try reflexivity.
  - unfold fr_plain, ex_f, ex_frag. cbn [fr_a fr_k1 fr_k2 fr_b].
    split; [|split; [|split]]; repeat constructor; cbn; intuition discriminate.
  - repeat constructor; discriminate.
  - exists [0;0;0], 90000. split; [reflexivity|]. split; [lia|]. split; [reflexivity|]. cbn. lia.
  - intros (f & t & LF & R & E & W). cbn [mp_offset ex_p] in W.
    change (fr_tfdt ex_f) with (0 :: [0;0;0] ++ be32 90000) in E. injection E as E.
    change (0 :: 0 :: 0 :: be32 90000) with ([0;0;0] ++ be32 90000) in E.
    apply app_inj_len in E; [|rewrite LF; reflexivity]. destruct E as [_ E]. apply (f_equal be_val) in E.
    rewrite !be32_val in E by lia. lia.
  - do 2 eexists. vm_compute. reflexivity.
Qed.

(** What goes wrong outside these hypotheses. *)
Definition ex_traf (t o : Z) : box :=
  Node (bstr "traf") [ex_tfhd; Leaf (bstr "tfdt") (ex_tfdt0 t); ex_trun o].
Definition ex_moof2 : box := Node (bstr "moof") [ex_mfhd 7; ex_traf 90000 176; ex_traf 90000 177].

(** Two tracks in one fragment, both widened: the fragment grows by eight bytes
    but every data offset by four. *)
Lemma C12_two_tracks_refuted_pf : exists p m m' d st i o o',
  mp_is_ttml p = false /\ segment_ok [m; Leaf (bstr "mdat") d] /\
  media_filter p (encs [m; Leaf (bstr "mdat") d]) = Ok (encs [m'; Leaf (bstr "mdat") d], st) /\
  boxes_ok containers any_payload [m'; Leaf (bstr "mdat") d] /\
  nth_error (data_offsets m) i = Some o /\ nth_error (data_offsets m') i = Some o' /\
  blen (enc m) + 8 <= o < blen (enc m) + 8 + blen d /\
  bslice o (o + 1) (encs [m; Leaf (bstr "mdat") d]) <> bslice o' (o' + 1) (encs [m'; Leaf (bstr "mdat") d]).
Proof.
  exists (mk_mparams (Some 4711) 6 80000 false (Some 90000) 0 false None false false 0%Q), ex_moof2,
   (Node (bstr "moof") [ex_mfhd 4711;
     Node (bstr "traf") [ex_tfhd; Leaf (bstr "tfdt") (1 :: [0;0;0] ++ be64 7200090000); ex_trun 180];
     Node (bstr "traf") [ex_tfhd; Leaf (bstr "tfdt") (1 :: [0;0;0] ++ be64 7200090000); ex_trun 181]]),
   [1;2;3;4;5].
  eexists. exists 0%nat, 176, 180. split; [reflexivity|]. split; [|split; [vm_compute; reflexivity|]].
  - unfold ex_moof2, ex_traf, ex_mfhd, ex_tfhd, ex_trun, ex_tfdt0, segment_ok. seg_tac.
  - split; [|split; [reflexivity|split; [reflexivity|split; [vm_compute; split; [discriminate|reflexivity]|vm_compute; discriminate]]]].
    apply (proj2 (boxes_ok_Forall _ _ _)).
    repeat constructor; cbn; intuition discriminate.
Qed.

(** Two fragments, the first one widened, the second one already with a 64-bit
    time: the data offset of the second one is moved although nothing grew. *)
Lemma C12_second_fragment_refuted_pf : exists p m1 d1 m2 d2 m1' m2' st o o',
  mp_is_ttml p = false /\ segment_ok [m1; Leaf (bstr "mdat") d1; m2; Leaf (bstr "mdat") d2] /\
  media_filter p (encs [m1; Leaf (bstr "mdat") d1; m2; Leaf (bstr "mdat") d2]) =
    Ok (encs [m1'; Leaf (bstr "mdat") d1; m2'; Leaf (bstr "mdat") d2], st) /\
  boxes_ok containers any_payload [m1'; Leaf (bstr "mdat") d1; m2'; Leaf (bstr "mdat") d2] /\
  data_offsets m2 = [o] /\ data_offsets m2' = [o'] /\
  blen (enc m2) + 8 = o /\ blen (enc m2') = blen (enc m2) /\
  bslice o (o + 1) (encs [m2; Leaf (bstr "mdat") d2]) <> bslice o' (o' + 1) (encs [m2'; Leaf (bstr "mdat") d2]).
Proof.
  exists (mk_mparams (Some 4711) 6 80000 false (Some 90000) 0 false None false false 0%Q),
   (Node (bstr "moof") [ex_mfhd 7; ex_traf 90000 104]), [1;2;3;4;5],
   (Node (bstr "moof") [ex_mfhd 8;
     Node (bstr "traf") [ex_tfhd; Leaf (bstr "tfdt") (1 :: [0;0;0] ++ be64 100000); ex_trun 108]]),
   [11;12;13;14;15],
   (Node (bstr "moof") [ex_mfhd 4711;
     Node (bstr "traf") [ex_tfhd; Leaf (bstr "tfdt") (1 :: [0;0;0] ++ be64 7200090000); ex_trun 108]]),
   (Node (bstr "moof") [ex_mfhd 4711;
     Node (bstr "traf") [ex_tfhd; Leaf (bstr "tfdt") (1 :: [0;0;0] ++ be64 7200100000); ex_trun 112]]).
  eexists. exists 108, 112. split; [reflexivity|]. split; [|split; [vm_compute; reflexivity|]].
  - unfold ex_traf, ex_mfhd, ex_tfhd, ex_trun, ex_tfdt0, segment_ok. seg_tac.
  - split; [|split; [reflexivity|split; [reflexivity|split; [reflexivity|split; [reflexivity|vm_compute; discriminate]]]]].
    apply (proj2 (boxes_ok_Forall _ _ _)). repeat constructor; cbn; intuition discriminate.
Qed.

(** A trun in front of tfdt is not adjusted. *)
Lemma C12_trun_first_refuted_pf : exists p f f' m st o,
  mp_is_ttml p = false /\ segment_ok (seg [] f m []) /\ fr_plain f /\
  media_filter p (encs (seg [] f m [])) = Ok (encs (seg [] f' m []), st) /\
  boxes_ok containers any_payload (seg [] f' m []) /\
  data_offsets (fr_moof f) = [o] /\ data_offsets (fr_moof f') = [o] /\
  blen (enc (fr_moof f)) + 8 = o /\ blen (enc (fr_moof f')) = blen (enc (fr_moof f)) + 4.
Proof.
  exists (mk_mparams (Some 4711) 6 80000 false (Some 90000) 0 false None false false 0%Q),
   (mk_fragment [ex_mfhd 7] [ex_tfhd; ex_trun 104] (ex_tfdt0 90000) [] []),
   (mk_fragment [ex_mfhd 4711] [ex_tfhd; ex_trun 104] (1 :: [0;0;0] ++ be64 7200090000) [] []), [1;2;3;4;5].
  eexists. exists 104. split; [reflexivity|]. split; [|split; [|split; [vm_compute; reflexivity|split]]].
  - unfold seg, fr_moof. cbn [app fr_a fr_k1 fr_k2 fr_b fr_tfdt]. unfold ex_mfhd, ex_tfhd, ex_trun, ex_tfdt0, segment_ok. seg_tac.
  - unfold fr_plain. cbn [fr_a fr_k1 fr_k2 fr_b].
    split; [|split; [|split]]; repeat constructor; cbn; intuition discriminate.
  - apply (proj2 (boxes_ok_Forall _ _ _)). repeat constructor; cbn; intuition discriminate.
  - split; [reflexivity|split; [reflexivity|split; reflexivity]].
Qed.

(** ** C13: well-formed output *)
Lemma C13_well_formed_partial_pf : forall p l out st, segment_ok l -> media_filter p (encs l) = Ok (out, st) ->
  exists l', out = encs l' /\ boxes_ok containers any_payload l'.
Proof.
  intros p l out st OK H. apply media_filter_boxes in H; auto.
  destruct H as (l1 & l2 & d & n & _ & _ & _ & E & W). eauto.
Qed.

(** Sizes that tile are not enough: a styp whose length is not a multiple of four
    is given the rounded up size but not the bytes. *)
Definition ex_p0 : mparams := mk_mparams (Some 4711) 6 0 false (Some 90000) 0 false None false false 0%Q.
Lemma C13_odd_styp_refuted_pf : exists p l out st, boxes_ok containers any_payload l /\
  media_filter p (encs l) = Ok (out, st) /\ ~ exists l', out = encs l' /\ boxes_ok containers any_payload l'.
Proof.
  exists ex_p0, [Leaf (bstr "styp") (bstr "msdh" ++ [0])]. do 2 eexists.
  split; [|split; [vm_compute; reflexivity|]].
  - apply (proj2 (boxes_ok_Forall _ _ _)). repeat constructor; cbn; intuition discriminate.
  - intros (l' & E & W). assert (l' <> []) by (intros ->; discriminate).
    apply encs_fit in W; auto. rewrite <- E in W. vm_compute in W. apply W. reflexivity.
Qed.
Lemma C13_long_mfhd_refuted_pf : exists p l out st, boxes_ok containers any_payload l /\
  media_filter p (encs l) = Ok (out, st) /\ ~ exists l', out = encs l' /\ boxes_ok containers any_payload l'.
Proof.
  exists ex_p0, [Node (bstr "moof") [Leaf (bstr "mfhd") [0;0;0;0; 0;0;0;7; 0]]]. do 2 eexists.
  split; [|split; [vm_compute; reflexivity|]].
  - apply (proj2 (boxes_ok_Forall _ _ _)). repeat constructor; cbn; intuition discriminate.
  - intros (l' & E & W). destruct l' as [|b l']; [discriminate|]. destruct W as [B _].
    destruct (enc_head _ _ _ (encs l') B) as (_ & SZ & TY). assert (T := box_ok_type _ _ _ B).
    assert (BD := enc_body b (encs l') T). cbn [encs] in E. rewrite <- E in SZ, TY, BD. rewrite <- SZ in BD.
    destruct b as [t p|t ks]; cbn [btype] in TY.
    + apply B. rewrite <- TY. simpl. auto.
    + apply box_ok_node in B. destruct B as (_ & _ & _ & B). cbn [body] in BD.
      assert (ks <> []) by (intros ->; discriminate).
      apply encs_fit in B; auto. rewrite <- BD in B. vm_compute in B. apply B. reflexivity.
Qed.
Example ex_well_formed : segment_ok ex_l /\ exists out st, media_filter ex_p (encs ex_l) = Ok (out, st).
Proof. split; [exact ex_l_ok|]. do 2 eexists. vm_compute. reflexivity. Qed.

(** ** C14: only documented fields change *)
Lemma C14_documented_pf : forall p l out st,
  segment_ok l -> mp_is_ttml p = false -> media_filter p (encs l) = Ok (out, st) ->
  exists ev x l1 l2 d,
    top_changes (mk_request (mp_seg_nr p) (match mp_timescale p with Some ts => mp_offset p * ts | None => 0 end)
                   (mp_lmsg p) None ev) 0 l l1 d /\
    inserted x l1 l2 /\ out = encs l2 /\ boxes_ok containers any_payload l2 /\
    Forall (fun b => btype b = bstr "emsg") ev /\ (mp_scte35 p = 0 -> ev = []) /\
    Forall (fun b => btype b = bstr "emsg" /\ mp_emsg_last p = true \/ btype b = bstr "sidx" /\ mp_insert_sidx p = true) x.
Proof. exact documented. Qed.
Lemma C14_copied_pf : forall p l out st,
  segment_ok l -> mp_is_ttml p = false -> media_filter p (encs l) = Ok (out, st) ->
  exists l', out = encs l' /\ boxes_ok containers any_payload l' /\ filter copied l' = filter copied l.
Proof. exact C14_copied_lem. Qed.
Example ex_copied : filter copied ex_l = [Leaf (bstr "mdat") [1;2;3;4;5]] /\ mp_is_ttml ex_p = false /\ mp_scte35 ex_p = 0.
Proof. split; [vm_compute; reflexivity|]. split; reflexivity. Qed.

(** ** C15: brands *)
Lemma C15_brands_pf : forall p l out st, segment_ok l -> media_filter p (encs l) = Ok (out, st) ->
  exists l', out = encs l' /\ boxes_ok containers any_payload l' /\
    Forall2 (fun a b => forall brands, Forall (fun x : bytes => blen x = 4) brands -> a = List.concat brands ->
                        b = List.concat (brand_list brands (mp_lmsg p))) (styps l) (styps l').
Proof. exact C15_lem. Qed.
Lemma without_app : forall a b, without_lmsg (a ++ b) = without_lmsg a ++ without_lmsg b.
Proof. induction a as [|x a IH]; intros; cbn [app without_lmsg]; auto. rewrite IH. destruct (bytes_eqb x (bstr "lmsg")); auto. Qed.
Lemma without_twice : forall a, without_lmsg (without_lmsg a) = without_lmsg a.
Proof.
  induction a as [|x a IH]; auto. cbn [without_lmsg]. destruct (bytes_eqb x (bstr "lmsg")) eqn:E; auto.
  cbn [without_lmsg]. rewrite E, IH. auto.
Qed.
Lemma brand_list_twice : forall l a b, brand_list (brand_list l a) b = brand_list l b.
Proof.
  intros. unfold brand_list. rewrite without_app, without_twice.
  destruct a; [change (without_lmsg [bstr "lmsg"]) with (@nil bytes)|]; rewrite ?app_nil_r; auto.
Qed.
(** The boxes of a reply are determined by its bytes, so "there are boxes" above
    means the boxes that any reader finds. *)
Lemma C13_unique_pf : forall l1 l2, boxes_ok containers any_payload l1 -> boxes_ok containers any_payload l2 ->
  encs l1 = encs l2 -> l1 = l2.
Proof. intros l1 l2 A B E. eapply encs_inj; eauto. Qed.

(** Filtering twice gives the brands of filtering once with the second flag. *)
Lemma C15_idempotent_pf : forall p q l st l1 l2 st2 l3 st3,
  segment_ok l -> segment_ok l1 -> boxes_ok containers any_payload l2 -> boxes_ok containers any_payload l3 ->
  media_filter p (encs l) = Ok (encs l1, st) ->
  media_filter q (encs l1) = Ok (encs l2, st2) -> media_filter q (encs l) = Ok (encs l3, st3) ->
  styps l2 = styps l3.
Proof.
  intros p q l st l1 l2 st2 l3 st3 O O1 W2 W3 H1 H2 H3.
  destruct (C15_lem _ _ _ _ O H1) as (a & EA & WA & FA). apply (encs_inj _ _ _ _ O1 _ WA) in EA. subst a.
  destruct (C15_lem _ _ _ _ O1 H2) as (a & EA & WB & FB). apply (encs_inj _ _ _ _ W2 _ WB) in EA. subst a.
  destruct (C15_lem _ _ _ _ O H3) as (a & EA & WC & FC). apply (encs_inj _ _ _ _ W3 _ WC) in EA. subst a.
  assert (BR : Forall (fun a => exists brands, Forall (fun x : bytes => blen x = 4) brands /\ a = List.concat brands) (styps l)).
  { clear - O. induction l as [|[t pl|t ks] l IH]; [constructor| |]; destruct O as [O1 O]; unfold styps in *; cbn [flat_map].
    - cbn [top_styp]. destruct (bytes_eqb t (bstr "styp")) eqn:E; [|apply IH; auto].
      apply bytes_eqb_eq in E. subst t. constructor; [|apply IH; auto].
      destruct O1 as (_ & _ & _ & LO & _). inversion LO; subst.
      + eauto.
      + exfalso. match goal with N : ~ In _ _ |- _ => apply N; simpl; auto end.
    - apply IH; auto. }
  clear - FA FB FC BR. revert FB FC BR. generalize (styps l2), (styps l3).
  induction FA as [|x y u v HX FA IH]; intros a b FB FC BR; inversion FB; inversion FC; subst; auto.
  inversion BR as [|? ? (br & B1 & B2) BR2]; subst. f_equal; auto.
  assert (Y := HX br B1 eq_refl). subst y.
  assert (F4 : Forall (fun x : bytes => blen x = 4) (brand_list br (mp_lmsg p))).
  { unfold brand_list. apply Forall_app. split.
    - clear - B1. induction B1 as [|x l H B IH]; [constructor|]. cbn [without_lmsg]. destruct (bytes_eqb x (bstr "lmsg")); auto.
    - destruct (mp_lmsg p); repeat constructor. }
  repeat match goal with H : forall brands, _ -> _ = List.concat brands -> ?z = _ |- _ =>
    first [specialize (H _ F4 eq_refl) | specialize (H _ B1 eq_refl)]; subst z end.
  rewrite brand_list_twice. reflexivity.
Qed.
Example ex_brands : styps ex_l = [List.concat [bstr "lmsg"; bstr "msdh"; bstr "lmsg"; bstr "msix"]] /\
  brand_list [bstr "lmsg"; bstr "msdh"; bstr "lmsg"; bstr "msix"] true = [bstr "msdh"; bstr "msix"; bstr "lmsg"] /\
  brand_list [bstr "lmsg"; bstr "msdh"; bstr "lmsg"; bstr "msix"] false = [bstr "msdh"; bstr "msix"].
Proof. split; [reflexivity|]. split; reflexivity. Qed.

(** ** C36: generated sidx *)
Lemma C36_sidx_partial_pf : forall p ts pre f m h r t dd total out st,
  segment_ok (seg pre f m []) -> mp_is_ttml p = false -> mp_timescale p = Some ts -> mp_insert_sidx p = true ->
  Forall (fun b => ~ In (btype b) [bstr "moof"; bstr "mdat"]) pre ->
  one_run f h r -> decode_time (fr_tfdt f) t ->
  tfhd_default (match mp_default_dur p with Some z => z | None => 0 end) h dd -> trun_total dd r total ->
  media_filter p (encs (seg pre f m [])) = Ok (out, st) ->
  exists A f',
    out = encs (A ++ Leaf (bstr "sidx")
                  (sidx_fields ts (t + mp_offset p * ts)
                     (blen (enc (fr_moof f')) + blen (enc (Leaf (bstr "mdat") m))) total)
                :: fr_moof f' :: [Leaf (bstr "mdat") m]) /\
    Forall (fun b => ~ In (btype b) [bstr "moof"; bstr "mdat"]) A /\
    decode_time (fr_tfdt f') (t + mp_offset p * ts) /\
    0 <= ts < 4294967296 /\ blen (enc (fr_moof f')) + blen (enc (Leaf (bstr "mdat") m)) < 4294967296 /\
    0 <= total < 4294967296.
Proof. exact C36_sidx_lem. Qed.
Example ex_sidx : mp_insert_sidx ex_pw = true /\
  Forall (fun b => ~ In (btype b) [bstr "moof"; bstr "mdat"]) ex_pre /\
  one_run ex_f ([0;2;0;8] ++ be32 1 ++ be32 512) ([0;0;2;1] ++ be32 2 ++ s32 136 ++ be32 3 ++ be32 2) /\
  decode_time (fr_tfdt ex_f) 90000 /\
  tfhd_default 0 ([0;2;0;8] ++ be32 1 ++ be32 512) 512 /\
  trun_total 512 ([0;0;2;1] ++ be32 2 ++ s32 136 ++ be32 3 ++ be32 2) 1024 /\
  blen (enc (Leaf (bstr "sidx") (sidx_fields 90000 7200090000 145 1024))) = 52.
Proof.
  split; [reflexivity|]. split; [repeat constructor; cbn; intuition discriminate|]. split; [|split; [|split; [|split]]].
  - exists [], [], [], [ex_saio 124; Leaf (bstr "senc") [9;8;7;6]]. split; [reflexivity|]. split; [reflexivity|].
    repeat constructor; cbn; intuition discriminate.
  - apply (DT0 [0;0;0]); [reflexivity|lia].
  - apply (TD_own 0 [0;2;0;8] (be32 1) [] 512 []); try reflexivity. lia.
  - change 1024 with (512 * Z.of_nat (List.length [be32 3; be32 2])).
    change ([0;0;2;1] ++ be32 2 ++ s32 136 ++ be32 3 ++ be32 2) with
      ([0;0;2;1] ++ be32 (Z.of_nat (List.length [be32 3; be32 2])) ++ s32 136 ++ List.concat [be32 3; be32 2]).
    apply TT_dflt; try reflexivity. repeat constructor.
  - reflexivity.
Qed.

(** With two truns only the last one counts. *)
Lemma C36_two_runs_refuted_pf : exists p f f' m st ts ept size dur r1 r2 t1 t2 dd h,
  mp_is_ttml p = false /\ mp_insert_sidx p = true /\ segment_ok (seg [] f m []) /\ fr_plain f /\
  fr_k1 f = [Leaf (bstr "tfhd") h] /\ tfhd_default 0 h dd /\
  fr_k2 f = [Leaf (bstr "trun") r1; Leaf (bstr "trun") r2] /\ trun_total dd r1 t1 /\ trun_total dd r2 t2 /\
  media_filter p (encs (seg [] f m [])) =
    Ok (encs (seg [Leaf (bstr "sidx") (sidx_fields ts ept size dur)] f' m []), st) /\
  0 <= dur < 4294967296 /\ dur <> t1 + t2.
Proof.
  exists (mk_mparams (Some 4711) 6 10 false (Some 90000) 0 false None true false 0%Q),
   (mk_fragment [ex_mfhd 7] [ex_tfhd] (ex_tfdt0 90000) [ex_trun 132; ex_trun 137] []),
   (mk_fragment [ex_mfhd 4711] [ex_tfhd] (ex_tfdt0 990000) [ex_trun 132; ex_trun 137] []), [1;2;3;4;5].
  eexists. exists 90000, 990000, 137, 1024.
  exists ([0;0;2;1] ++ be32 2 ++ s32 132 ++ be32 3 ++ be32 2), ([0;0;2;1] ++ be32 2 ++ s32 137 ++ be32 3 ++ be32 2),
    1024, 1024, 512, ([0;2;0;8] ++ be32 1 ++ be32 512).
  assert (TT : forall o, trun_total 512 ([0;0;2;1] ++ be32 2 ++ s32 o ++ be32 3 ++ be32 2) 1024).
  { intros o. change 1024 with (512 * Z.of_nat (List.length [be32 3; be32 2])).
    change ([0;0;2;1] ++ be32 2 ++ s32 o ++ be32 3 ++ be32 2) with
      ([0;0;2;1] ++ be32 (Z.of_nat (List.length [be32 3; be32 2])) ++ s32 o ++ List.concat [be32 3; be32 2]).
    apply TT_dflt; try reflexivity. repeat constructor. }
  split; [reflexivity|]. split; [reflexivity|]. split; [|split; [|split; [reflexivity|split; [|split; [reflexivity|]]]]].
  - unfold seg, fr_moof. cbn [app fr_a fr_k1 fr_k2 fr_b fr_tfdt]. unfold ex_mfhd, ex_tfhd, ex_trun, ex_tfdt0, segment_ok. seg_tac.
  - unfold fr_plain. cbn [fr_a fr_k1 fr_k2 fr_b].
    split; [|split; [|split]]; repeat constructor; cbn; intuition discriminate.
  - apply (TD_own 0 [0;2;0;8] (be32 1) [] 512 []); try reflexivity. lia.
  - split; [apply TT|]. split; [apply TT|]. split; [vm_compute; reflexivity|]. lia.
Qed.

(** With two fragments the index stands in front of the second one but counts
    the bytes of both. *)
Lemma C36_two_fragments_refuted_pf : exists p m1 d1 m2 d2 m1' m2' st ts ept size dur,
  mp_is_ttml p = false /\ mp_insert_sidx p = true /\
  segment_ok [m1; Leaf (bstr "mdat") d1; m2; Leaf (bstr "mdat") d2] /\
  media_filter p (encs [m1; Leaf (bstr "mdat") d1; m2; Leaf (bstr "mdat") d2]) =
    Ok (encs [m1'; Leaf (bstr "mdat") d1; Leaf (bstr "sidx") (sidx_fields ts ept size dur); m2'; Leaf (bstr "mdat") d2], st) /\
  0 <= size < 4294967296 /\ blen (encs [m2'; Leaf (bstr "mdat") d2]) < size.
Proof.
  exists (mk_mparams (Some 4711) 6 10 false (Some 90000) 0 false None true false 0%Q),
   (Node (bstr "moof") [ex_mfhd 7; ex_traf 90000 104]), [1;2;3;4;5],
   (Node (bstr "moof") [ex_mfhd 8; ex_traf 91024 104]), [11;12;13;14;15],
   (Node (bstr "moof") [ex_mfhd 4711; ex_traf 990000 104]), (Node (bstr "moof") [ex_mfhd 4711; ex_traf 991024 104]).
  eexists. exists 90000, 991024, 218, 1024. split; [reflexivity|]. split; [reflexivity|]. split; [|split].
  - unfold ex_traf, ex_mfhd, ex_tfhd, ex_trun, ex_tfdt0, segment_ok. seg_tac.
  - vm_compute; reflexivity.
  - split; [lia|]. vm_compute. reflexivity.
Qed.

(** ** C53: termination *)
Lemma C53_terminates_partial_pf : forall p data, mp_is_ttml p = false -> scan_top tops containers data ->
  (forall fuel, (enough data <= fuel)%nat ->
     mp4_filter (m_class p) fuel data (m_init p None) = media_filter p data) /\
  media_filter p data <> Err "diverges".
Proof. exact filter_stops. Qed.
Lemma C53_segments_pf : forall p l, segment_ok l -> media_filter p (encs l) <> Err "diverges".
Proof. exact segment_stops. Qed.
Lemma C53_mdat_search_pf : forall p data, scan_top [] [] data -> forall fuel, (enough data <= fuel)%nat ->
  mdat_loop p fuel data 0 [] None = mdat_loop p (enough data) data 0 [] None /\
  mdat_loop p fuel data 0 [] None <> Err "diverges".
Proof.
  intros p data SC fuel F. apply (mdat_loop_stops p data data); auto; unfold enough in *; lia.
Qed.
(** Not every byte string is such: bytes that are garbage for a box parser *)
Example ex_scan : scan_top tops containers [0;0;0;3;109;111;111;102;1;2].
Proof.
  eapply ST_box; [discriminate|reflexivity|reflexivity| |].
  - intros _ _. apply SC_short. reflexivity.
  - eapply ST_box; [discriminate|reflexivity|reflexivity| |].
    + intros I. exfalso. vm_compute in I. decompose [or] I; try contradiction; discriminate.
    + apply ST_short. reflexivity.
Qed.

(** A declared size of zero (which the format uses for "to the end of the file")
    makes both loops run forever: no amount of steps suffices. *)
Definition ex_zero : bytes := [0;0;0;0;102;114;101;101].
Lemma top_zero : forall p fuel output boxes st,
  top_loop (m_class p) fuel ex_zero 0 output boxes st = Err "diverges".
Proof.
  intros p. induction fuel as [|fuel IH]; intros output boxes st; [reflexivity|].
  cbn [top_loop]. change (0 <? blen ex_zero) with true. cbv iota.
  change (check_box (bslice 0 (0 + 8) ex_zero)) with (Ok (0, bstr "free")). cbn [bind].
  change (bytes_in (bstr "free") (fc_top (m_class p))) with false. cbv iota. cbn [bind].
  change (bslice 0 (0 + 0) ex_zero) with (@nil Z). change (0 <? blen []) with false. cbv iota.
  change (0 + 0) with 0. apply IH.
Qed.
Lemma C53_size_zero_refuted_pf : exists data, forall p fuel st, mp4_filter (m_class p) fuel data st = Err "diverges".
Proof. exists ex_zero. intros p fuel st. unfold mp4_filter. rewrite top_zero. reflexivity. Qed.
Lemma mdat_zero : forall p fuel output sz, mdat_loop p fuel ex_zero 0 output sz = Err "diverges".
Proof.
  intros p. induction fuel as [|fuel IH]; intros output sz; [reflexivity|].
  cbn [mdat_loop]. change (0 <? blen ex_zero) with true. cbv iota.
  change (str_to_uint32 (bslice 0 (0 + 4) ex_zero)) with (Ok 0). cbn [bind].
  change (bytes_eqb (bslice (0 + 4) (0 + 8) ex_zero) (bstr "mdat")) with false. cbv iota.
  change (0 + 0) with 0. apply IH.
Qed.
Lemma C53_mdat_size_zero_refuted_pf : exists data, forall p fuel, mdat_loop p fuel data 0 [] None = Err "diverges".
Proof. exists ex_zero. intros p fuel. apply mdat_zero. Qed.
