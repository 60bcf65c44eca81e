(** Available segments of well-formed content are served (C68). *)
From Coq Require Import Lqa.
From Verif Require Import Base BaseProofs BytesModel BytesProofs StrModel BoxSpec ConfigModel ConfigProofs
  ProxyModel ProxySpec ProxyProofs ProxyTheory TimeModel TimeProofs EmsgModel EmsgSpec EmsgTheory
  MediaModel MediaSpec MediaProofs MediaProofs2 MediaTheory SegmentModel HttpModel HttpSpec HttpTheory Mpd2Spec
  EndSpec EndTheory ServeSpec ServeProofs.
Local Open Scope string_scope.
Open Scope Z_scope.

(** No splice events in this representation, or event numbers of 32 bits. *)
Definition announceable (c : config) (r : rep) (n : Z) : Prop :=
  c_scte35 c = 0 \/ rep_type r <> "video" \/ c_seg_dur c <= 30000 /\ (n + 1) * c_seg_dur c + 8 < 42949672960.

Lemma params_fit : forall c r n b now, 0 <= n < 4294967296 -> 0 < c_seg_dur c -> announceable c r n ->
  fits (segment_params c r (the_served c n b) None now).
Proof.
  intros c r n b now N D A. constructor; [exact N|]. unfold segment_params. cbn [mp_scte35 mp_seg_nr mp_seg_duration the_served sv_nr].
  destruct (String.eqb_spec (rep_type r) "video") as [V|V]; [|eexists; reflexivity].
  destruct A as [-> |[K|(D1 & L)]]; [eexists; reflexivity|contradiction|].
  unfold create_scte35box. destruct ((c_scte35 c <? 1) || (8 <? c_scte35 c))%bool eqn:E; [eauto|].
  assert (S : 1 <= c_scte35 c <= 8) by lia.
  destruct (event_spec (c_scte35 c) n (c_seg_dur c) S) as [(t & -> & _ & P & _ & T & _)|(-> & _)]; [|eauto].
  assert (X : t <= (n + 1) * c_seg_dur c + 8 /\ n * c_seg_dur c <= t) by (unfold touches in T; lia).
  rewrite scte35_box_ok; [eauto| |lia].
  split; [apply Z.div_pos; lia|]. apply Z.div_lt_upper_bound; lia.
Qed.
Lemma content_total : forall s r now, hr_range r = None -> exists rp, content_reply s r now = Ok rp.
Proof.
  intros s r now R. unfold content_reply. rewrite R. unfold start_reply. cbn [status_string bind Z.eqb Pos.eqb].
  destruct (respond s r now) as [[b|t|t l|pl]|e]; eauto.
  - destruct b; eauto.
  - destruct (encode_utf8 t); eauto.
Qed.

(** The reply is the segment exactly inside its window, whatever was requested
    before; outside it is a 404. *)
Lemma C68_window_pf : forall limit s r now sid history c rep n l,
  admitted limit r now -> hr_range r = None -> site_ok s ->
  provider_config s r now = Ok c -> media_request c n -> not_chunked c ->
  c_reps c = [rep] -> rep_type rep <> "subtitles" -> c_insert_sidx c = false ->
  0 <= n < 4294967296 -> announceable c rep n ->
  st_files s (c_content_name c) (c_rel_path c) (source_file c n) ".m4s" = Ok (encs l) ->
  sendable (shift c n * rep_timescale rep) l ->
  exists rp, fst (application limit s r now sid (run limit s history [])) = Ok rp /\
    (ProxySpec.session_started c now /\ session_not_over c now /\ available c n now -> rp_status rp = 200) /\
    (~ (ProxySpec.session_started c now /\ session_not_over c now /\ available c n now) -> rp_status rp = 404).
Proof.
  intros limit s r now sid history c rep n l AD R SK P M NC RP NS SX NB AN F SE.
  destruct (provider_wf _ _ _ _ SK P) as (W & EL). assert (E := mr_ext c n M).
  destruct (content_total s r now R) as (rp & H). exists rp.
  rewrite (admitted_content _ _ _ _ _ _ AD). cbn [fst]. split; [exact H|].
  assert (K := content_cases _ _ _ _ R H). unfold respond in K. rewrite P in K. cbn [bind] in K. rewrite E in K.
  change (String.eqb ".m4s" ".m4s") with true in K. cbv iota in K.
  assert (CK : (match c_chunkdur c with Some q => Qltb 0 q | None => false end) = false).
  { destruct (c_chunkdur c) as [q|] eqn:Q; [|reflexivity]. apply Qltb_false. apply NC. exact Q. }
  rewrite CK in K. unfold media_response in K.
  assert (I := fun sv => get_media_serve_iff c n now sv W M).
  destruct (get_media c now) as [[why|sv]|e] eqn:G; cbn [bind] in K.
  - split; [|intros _; exact K]. intros A. exfalso. assert (Z := proj2 (I _) (conj A eq_refl)). discriminate.
  - destruct (proj1 (I sv) eq_refl) as (A & ->). split; [intros _|contradiction].
    rewrite E in K. change (String.eqb ".m4s" ".m4s") with true in K. cbv iota in K.
    unfold media_content in K. rewrite RP in K. unfold plain_segment in K. rewrite RP in K. unfold filter_media_segment in K.
    change (sv_vod (the_served c n (c_emsg_last c))) with (source_file c n) in K. rewrite E, F in K. cbn [bind] in K.
    destruct (filter_runs (segment_params c rep (the_served c n (c_emsg_last c)) None (py_int_of_Q now)) l) as (out & st & Q & NE).
    + apply params_fit; auto. apply (wf_dur c W).
    + unfold shift_of, segment_params. cbn [mp_timescale mp_offset the_served sv_offset]. rewrite loop_start_shift by exact W. exact SE.
    + apply String.eqb_neq. exact NS.
    + exact SX.
    + exact EL.
    + rewrite Q in K. cbn [bind] in K. destruct out; [contradiction|]. apply K.
  - split; [|intros _; exact K]. intros A. exfalso. assert (Z := proj2 (I _) (conj A eq_refl)). discriminate.
Qed.

(** Without options: segment [n] of well-formed content is delivered exactly
    from (n+1)d to (n+2)d plus the time-shift depth. *)
Lemma C68_default_url_pf : forall limit s r now sid history first name rp ct m v n l,
  admitted limit r now -> hr_range r = None -> site_ok s ->
  hr_path r = "/" ++ first ++ "/" ++ name ++ "/" ++ rp ++ "/" ++ print_Z n ++ ".m4s" ->
  no_slash first -> no_slash name -> no_slash rp -> plain_name name -> split_dunder rp = [rp] ->
  st_vod s name = Ok v -> content_type_for_rep (v_media v) rp = Some (ct, m) -> ct <> "subtitles" -> 0 <= n < 4294967296 ->
  let d := v_dur v in let N := v_n v in
  st_files s name rp (v_first v + n mod N) ".m4s" = Ok (encs l) -> sendable (n / N * (N * d) * m_timescale m) l ->
  exists reply, fst (application limit s r now sid (run limit s history [])) = Ok reply /\
    ((inject_Z ((n + 1) * d) <= now <= inject_Z ((n + 2) * d + v_tsbd v))%Q -> rp_status reply = 200) /\
    (~ (inject_Z ((n + 1) * d) <= now <= inject_Z ((n + 2) * d + v_tsbd v))%Q -> rp_status reply = 404).
Proof.
  intros limit s r now sid history first name rp ct m v n l AD R SK HP S1 S2 S3 PN SD HV CT NS HN d N F SE.
  destruct (default_config s r now first name rp ct m v n HP S1 S2 S3 PN SD HV CT (proj1 HN))
    as (c & P & f1 & f2 & f3 & f4 & f5 & f6 & f7 & f8 & f9 & f10 & f11 & f12 & f13 & f14 & f15 & f16 & f17 & f18 & f19 & f20 & f21).
  destruct (provider_wf _ _ _ _ SK P) as (W & _). assert (Wd := wf_dur c W). assert (Wn := wf_n c W). rewrite f6 in Wd. rewrite f7 in Wn. fold d in Wd. fold N in Wn.
  assert (NC : not_chunked c) by (intros q Q; rewrite f18 in Q; discriminate).
  assert (MR : media_request c n) by (constructor; auto; [rewrite f3; discriminate|intros u; rewrite f17; discriminate]).
  assert (FN : first_nr c = 0) by (unfold first_nr; rewrite f12, f13; reflexivity).
  assert (MS : media_start c n = n * d) by (unfold media_start, media_time_at_ast; rewrite f13, FN, f6; fold d; lia).
  assert (SF : source_file c n = v_first v + n mod N).
  { unfold source_file. rewrite MS, f6, f7, f8. fold d. fold N. rewrite Z.div_mul by lia. reflexivity. }
  assert (SH : shift c n = n / N * (N * d)).
  { unfold shift. rewrite MS, f6, f7. fold d. fold N. rewrite (Z.mul_comm d N). rewrite Z.div_mul_cancel_r by lia. reflexivity. }
  destruct (C68_window_pf limit s r now sid history c _ n l AD R SK P MR NC f3) as (reply & H & K1 & K2); auto.
  { left. exact f20. }
  { rewrite f4, f5, SF. exact F. }
  { rewrite SH. exact SE. }
  exists reply. split; [exact H|].
  assert (IFF := fun sv => get_media_serve_iff c n now sv W MR).
  destruct (C01_media_window_exact_pf c n now _ _ W MR f9 f10 f14 f15 f16) as ((C1 & C1') & _).
  rewrite FN, f11, f6 in C1, C1'. fold d in C1, C1'. rewrite Z.sub_0_r in C1, C1'. cbn [Z.add] in C1, C1'.
  assert (Z0 : forall x : Q, (x - 0 == x)%Q) by (intros; ring).
  split.
  - intros (A & B). apply K1. destruct C1' as (sv & G).
    + split; [|split; [|exact B]]; [|rewrite Z0; exact A]. exact (proj1 HN).
    + apply (proj1 (IFF sv)) in G. apply G.
  - intros O. apply K2. intros A. apply O. assert (G := proj2 (IFF _) (conj A eq_refl)).
    destruct (C1 (ex_intro _ _ G)) as (_ & C2 & C3). rewrite Z0 in C2. split; [exact C2|exact C3].
Qed.

(** ** Concrete cases *)
Lemma ex_l_sendable : forall shift, 0 <= shift < 1000000000000 -> sendable shift ex_l.
Proof.
  intros shift S. constructor.
  - exact ex_l_ok.
  - vm_compute. reflexivity.
  - exists (fr_moof ex_f). split; [vm_compute; auto|reflexivity].
  - assert (O : forall t p, ~ In t [bstr "tfdt"; bstr "tfhd"; bstr "trun"; bstr "saio"] -> ascii_type t -> room shift (t, p))
      by (intros; apply R_other; assumption).
    assert (RD : room shift (bstr "tfdt", ex_tfdt0 90000)).
    { apply (R_tfdt _ _ 90000); [apply (DT0 [0;0;0]); [reflexivity|lia]|lia]. }
    assert (RH : room shift (bstr "tfhd", [0;2;0;8] ++ be32 1 ++ be32 512)%list) by (apply R_tfhd; reflexivity).
    assert (RR : room shift (bstr "trun", [0;0;2;1] ++ be32 2 ++ s32 136 ++ be32 3 ++ be32 2)%list).
    { eapply R_trun; [apply (TT_dflt 0 [0;0;2;1] (s32 136) [be32 3; be32 2]); [reflexivity|reflexivity|reflexivity|repeat constructor|reflexivity]|].
      change (data_offset _) with [136]. constructor; [lia|constructor]. }
    assert (RS : room shift (bstr "saio", 0 :: [0;0;0] ++ [] ++ be32 1 ++ List.concat (map be32 [124]))%list).
    { eapply (R_saio _ _ [124]); [apply (SE0 [0;0;0] [] [124]); [reflexivity|reflexivity|constructor; [lia|constructor]|reflexivity]|constructor; [lia|constructor]]. }
    intros b [<-|[<-|[<-|[<-|[]]]]]; cbn [leaves fr_moof ex_f ex_frag fr_a fr_k1 fr_tfdt fr_k2 fr_b app ex_mfhd ex_tfhd ex_trun ex_saio].
    all: repeat (constructor; [first [exact RD|exact RH|exact RR|exact RS|apply O; [vm_compute; intuition discriminate|repeat (constructor; [vm_compute; split; [discriminate|reflexivity]|]); constructor]]|]); constructor.
  - intros t ks [X|[X|[X|[X|[]]]]]; try discriminate. injection X as <- <-. vm_compute. intuition discriminate.
Qed.
(** Segment 31 of V2: sent at second 200, gone at second 500. *)
Example C68_default_case :
  let r := ex_request "/livesim/testpic/V2/31.m4s" None in
  let n := 31 in let N := v_n ex_vod in let d := v_dur ex_vod in
  st_vod two_site "testpic" = Ok ex_vod /\
  st_files two_site "testpic" "V2" (v_first ex_vod + n mod N) ".m4s" = Ok (encs ex_l) /\
  sendable (n / N * (N * d) * 90000) ex_l /\
  (inject_Z ((n + 1) * d) <= 200 <= inject_Z ((n + 2) * d + v_tsbd ex_vod))%Q /\
  ~ (inject_Z ((n + 1) * d) <= 500 <= inject_Z ((n + 2) * d + v_tsbd ex_vod))%Q.
Proof.
  cbn zeta. split; [reflexivity|]. split; [reflexivity|]. split; [apply ex_l_sendable; vm_compute; split; [discriminate|reflexivity]|].
  split; [split; vm_compute; discriminate|]. intros (_ & K). vm_compute in K. apply K. reflexivity.
Qed.
(** The same with three splices a minute. *)
Example C68_window_case :
  let r := ex_request "/livesim/scte35_3/testpic/V2/31.m4s" None in
  exists c, provider_config two_site r 200 = Ok c /\ media_request c 31 /\ not_chunked c /\
  c_reps c = [mkRep "V2" "video" 90000] /\ c_insert_sidx c = false /\ c_scte35 c = 3 /\ announceable c (mkRep "V2" "video" 90000) 31 /\
  st_files two_site (c_content_name c) (c_rel_path c) (source_file c 31) ".m4s" = Ok (encs ex_l) /\
  sendable (shift c 31 * 90000) ex_l /\
  ProxySpec.session_started c 200 /\ session_not_over c 200 /\ available c 31 200.
Proof.
  cbn zeta. eexists. split; [vm_compute; reflexivity|].
  split; [constructor; [reflexivity|vm_compute; reflexivity|discriminate|discriminate]|]. split; [intros q Q; discriminate|].
  split; [reflexivity|]. split; [reflexivity|]. split; [reflexivity|]. split; [right; right; vm_compute; split; [discriminate|reflexivity]|].
  split; [reflexivity|]. split; [apply ex_l_sendable; vm_compute; split; [discriminate|reflexivity]|].
  split; [vm_compute; discriminate|]. split; [intros e Q; discriminate|].
  split; [vm_compute; discriminate|].
  split; [split; [intros k (ST & _) _; exfalso; apply ST; reflexivity|intros K; exfalso; apply K; reflexivity]|].
  split; [vm_compute; discriminate|right]. intros b Q. vm_compute in Q. injection Q as <-. vm_compute. discriminate.
Qed.
