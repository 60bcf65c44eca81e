(** Splice announcements in served segments (C34). *)
From Coq Require Import ZifyBool ZifyNat.
From Verif Require Import Base BaseProofs BytesModel BytesProofs Mp4Model Mp4Proofs BoxSpec EmsgModel EmsgSpec ConfigModel ProxyModel
  MediaModel MediaSpec MediaProofs MediaProofs2 MediaProofs3 MediaProofs4 MediaProofs5 MediaProofs6 MediaProofs7 MediaProofs8 SegmentModel ProxyTheory MediaTheory EmsgTheory.
Open Scope Z_scope.

Lemma documented_events : forall p l out st, segment_ok l -> mp_is_ttml p = false -> media_filter p (encs l) = Ok (out, st) ->
  exists x l1 l2 d,
    top_changes (mk_request (mp_seg_nr p) (match mp_timescale p with Some ts => mp_offset p * ts | None => 0 end)
                   (mp_lmsg p) None (events p)) 0 l l1 d /\
    inserted x l1 l2 /\ out = encs l2 /\
    Forall (fun b => btype b = bstr "emsg" /\ mp_emsg_last p = true \/ btype b = bstr "sidx" /\ mp_insert_sidx p = true) x.
Proof.
  intros p l out st OK NT H. apply media_filter_boxes in H; auto.
  destruct H as (l1 & l2 & d & n & TC & _ & INS & E & W).
  unfold prepared, prepared_size in TC. rewrite NT in TC.
  exists (extras p st n), l1, l2, d.
  split; [exact TC|]. split; [exact INS|]. split; [exact E|].
  unfold extras. apply Forall_app. split.
  - destruct (mp_emsg_last p); [constructor; [left; auto|constructor]|constructor].
  - destruct (mp_insert_sidx p); [|constructor].
    destruct (mp_timescale p), (ms_tfdt st), (ms_duration st); constructor; [right; auto|constructor].
Qed.
Lemma minute_div : forall d k t, t / 60 = k * d / 60 -> in_minute d k t.
Proof. intros d k t H. unfold in_minute. pose proof (Z.div_mod t 60). pose proof (Z.div_mod (k * d) 60). lia. Qed.

(** The segment served is the stored one, changed as documented, with the boxes
    [ev] behind styp.  Only video has any.  Each announces a splice of the
    schedule; when there is none, no warning instant of a splice in the minute of
    the segment is touched. *)
Lemma C34_delivered_pf : forall files c r rel sv dflt now l out,
  files rel (sv_vod sv) (c_ext c) = Ok (encs l) -> segment_ok l -> rep_type r <> "subtitles"%string ->
  filter_media_segment files c r rel sv dflt now = Ok out ->
  let n := c_scte35 c in let d := c_seg_dur c in let k := sv_nr sv in
  exists ev x l1 l2 g,
    top_changes (mk_request (Some k) (sv_offset sv * rep_timescale r) (sv_lmsg sv) None ev) 0 l l1 g /\
    inserted x l1 l2 /\ out = encs l2 /\
    (sv_emsg sv = false -> Forall (fun b => btype b = bstr "sidx") x) /\
    (rep_type r <> "video"%string -> ev = []) /\
    (ev = [] \/ exists t, ev = [splice_box n (k * d) t] /\ splice n t /\ 0 <= t /\ (touches d k (t - 6) \/ touches d k (t - 8))) /\
    (rep_type r = "video"%string -> 1 <= n <= 8 -> d <= 100 ->
       forall t, splice n t -> 0 <= t -> t / 10 < 4294967296 -> t / 60 = k * d / 60 ->
       touches d k (t - 6) \/ touches d k (t - 8) -> ev <> []).
Proof.
  intros files c r rel sv dflt now l out F OK NS H n d k. unfold filter_media_segment in H. rewrite F in H. cbn [bind] in H.
  apply bind_ok in H. destruct H as ((o & st) & H & E). injection E as <-.
  set (p := segment_params c r sv dflt now) in *.
  assert (NT : mp_is_ttml p = false).
  { unfold p, segment_params. cbn [mp_is_ttml]. apply String.eqb_neq. exact NS. }
  destruct (documented_events p l o st OK NT H) as (x & l1 & l2 & g & A & B & C & D).
  exists (events p), x, l1, l2, g. split; [exact A|]. split; [exact B|]. split; [exact C|]. split; [|split; [|split]].
  - intros Z. eapply Forall_impl; [|exact D]. cbn. intros b [(_ & X)|(X & _)]; [|exact X]. unfold p, segment_params in X. cbn [mp_emsg_last] in X. congruence.
  - intros Z. unfold events, p, segment_params. cbn [mp_scte35 mp_seg_nr mp_seg_duration]. destruct (String.eqb_spec (rep_type r) "video") as [|_]; [contradiction|].
    reflexivity.
  - unfold events. change (mp_seg_nr p) with (Some k). change (mp_seg_duration p) with d.
    destruct (create_scte35box (mp_scte35 p) (Some k) d) as [b|] eqn:Q; [|left; reflexivity]. destruct b as [|b0 b]; [left; reflexivity|].
    assert (V : mp_scte35 p = n).
    { unfold p, segment_params in *. cbn [mp_scte35] in *. destruct (String.eqb (rep_type r) "video"); [reflexivity|]. cbn in Q. discriminate. }
    rewrite V in Q. destruct (C34_message_pf n k d _ Q ltac:(discriminate)) as (t & S & P & T & _ & BX). right. exists t.
    split; [|auto]. rewrite BX. unfold splice_box. rewrite enc_leaf. cbn [app bdrop skipn]. reflexivity.
  - intros V N D100 t S P L M T. unfold events. change (mp_seg_nr p) with (Some k). change (mp_seg_duration p) with d.
    assert (VN : mp_scte35 p = n) by (unfold p, segment_params; cbn [mp_scte35]; rewrite V; reflexivity). rewrite VN.
    assert (Q : exists b0 b, create_scte35box n (Some k) d = Ok (b0 :: b)).
    { unfold create_scte35box. destruct ((n <? 1) || (8 <? n)) eqn:E; [lia|].
      destruct (event_spec n k d N) as [(t' & EV & S' & P' & M' & T' & LE)|(_ & X)].
      - rewrite EV. specialize (LE t S P (minute_div _ _ _ M) T). rewrite scte35_box_ok.
        + unfold splice_box. rewrite enc_leaf. do 2 eexists. reflexivity.
        + split; [apply Z.div_pos; lia|]. assert (t' / 10 <= t / 10) by (apply Z.div_le_mono; lia). lia.
        + unfold touches in T'. lia.
      - destruct (X t S P (minute_div _ _ _ M) T). }
    destruct Q as (b0 & b & ->). discriminate.
Qed.
(** Segment 65 of 6 s video with two splices a minute announces the splice at
    400 s; the same segment of audio is shorter by the event box. *)
Example C34_delivered_case :
  let files := (fun (_ : string) (_ : Z) (_ : string) => Ok (encs ex_l)) in
  let c := set_scte35 2 (set_seg_dur 6 ex_c) in
  let sv := mkServed 5 65 0 false 0 false in
  segment_ok ex_l /\ splice 2 400 /\ touches 6 65 (400 - 6) /\ 400 / 60 = 65 * 6 / 60 /\
  exists v a, filter_media_segment files c (mkRep "V1" "video" 90000) "" sv None 0 = Ok v /\
    filter_media_segment files c (mkRep "A1" "audio" 90000) "" sv None 0 = Ok a /\
    blen v = blen a + blen (enc (splice_box 2 390 400)).
Proof.
  cbn zeta. split; [exact ex_l_ok|]. split; [unfold splice, splice_second; right; left; split; reflexivity|].
  split; [unfold touches; lia|]. split; [reflexivity|]. do 2 eexists. split; [vm_compute; reflexivity|]. split; [vm_compute; reflexivity|].
  vm_compute. reflexivity.
Qed.
