(** From the URL of a media segment to the bytes of the reply (C67). *)
From Coq Require Import Lqa ZifyBool ZifyNat.
From Verif Require Import Base BaseProofs BytesModel BytesProofs StrModel BoxSpec Mp4Model Mp4Proofs ConfigModel ConfigProofs
  ProxyModel ProxySpec ProxyProofs ProxyTheory Proxy2Theory ConfigTheory TimeModel TimeSpec TimeProofs TimeTheory
  EmsgModel EmsgSpec EmsgTheory MediaModel MediaSpec MediaProofs MediaProofs2 MediaTheory SegmentModel Emsg2Theory
  MuxModel MuxSpec MuxTheory HttpModel HttpSpec HttpProofs HttpTheory Mpd2Spec Mpd2Proofs EndSpec.
Local Open Scope string_scope.
Open Scope Z_scope.

(** ** The configuration of a request *)
Lemma url_loop_untouched : forall now parts u pos u' pos', untouched (u_cfg u) ->
  url_loop now parts u pos = Ok (u', pos') -> untouched (u_cfg u').
Proof.
  intros now. induction parts as [|p parts IH]; intros u pos u' pos' U H; cbn [url_loop] in H.
  - injection H as <- _. exact U.
  - destruct (split_first "_" p) as [(k, v)|].
    + destruct (str_in k url_cfg_keys); [|injection H as <- _; exact U].
      apply bind_ok in H. destruct H as (u1 & H1 & H). eapply IH; [|exact H]. eapply url_option_untouched; eauto.
    + destruct (str_in p url_cfg_keys); [discriminate|]. injection H as <- _. exact U.
Qed.
(** A site whose contents have segments of a positive duration. *)
Definition site_ok (s : site) : Prop := forall name v, st_vod s name = Ok v -> 0 < v_dur v /\ 0 < v_n v.
Lemma provider_wf : forall s r now c, site_ok s -> provider_config s r now = Ok c ->
  wf_cfg c /\ c_emsg_last c = false.
Proof.
  intros s r now c S H. unfold provider_config in H.
  destruct (path_parts r) as [|p0 [|first parts]]; try discriminate.
  unfold process_url in H. set (base := _ ++ _) in H. clearbody base.
  apply bind_ok in H. destruct H as ((u & pos) & HL & H).
  assert (U : untouched (u_cfg u)) by (eapply url_loop_untouched; [|exact HL]; repeat split).
  apply bind_ok in H. destruct H as (c0 & HD & H). cbv zeta in H.
  assert (U0 : untouched c0).
  { unfold update_with_filedata in HD. apply bind_ok in HD. destruct HD as (nm & _ & HD).
    apply bind_ok in HD. destruct HD as (fn & _ & HD). injection HD as <-. exact U. }
  apply bind_ok in H. destruct H as (v & HV & H). destruct (S _ _ HV) as (D & N).
  destruct U0 as (_ & _ & _ & _ & U5 & _ & U7).
  destruct (finish_url_wf _ _ _ _ (u_setcfg (fun _ => c0) u) _ D N U5 H) as (W & B). split; [exact W|].
  destruct B as (_&_&_&_&_&_&_&_&_&_&b11&_). rewrite b11. exact U7.
Qed.

(** ** Up and down *)
Lemma split_all_digits : forall ds sep r h t, all_digits ds = true -> digit_val sep = None ->
  split_all sep r = h :: t -> split_all sep (ds ++ r) = (ds ++ h) :: t.
Proof.
  induction ds as [|a ds IH]; intros sep r h t H K S; simpl in *; [exact S|].
  destruct (digit_val a) eqn:E; [|discriminate].
  destruct (Ascii.eqb_spec a sep); [congruence|]. rewrite (IH _ _ h t) by auto. reflexivity.
Qed.
Lemma parse_two : forall ca cb X Y, 0 <= X -> 0 <= Y -> ca <> "_"%char -> cb <> "_"%char ->
  parse_updown (String ca (print_Z X ++ String "_" (String cb (print_Z Y)))) = Ok ((ca, X), (cb, Y)).
Proof.
  intros ca cb X Y HX HY A B. unfold parse_updown.
  destruct (print_Z_digits X HX) as (X1 & _ & _). destruct (print_Z_digits Y HY) as (Y1 & _ & _).
  assert (E : split_all "_" (print_Z Y) = [print_Z Y]).
  { rewrite <- (string_app_nil_r (print_Z Y)) at 1. rewrite (split_all_digits _ _ _ "" []) by auto.
    rewrite string_app_nil_r. reflexivity. }
  cbn [split_all]. destruct (Ascii.eqb_spec ca "_"); [contradiction|].
  rewrite (split_all_digits _ _ _ "" [String cb (print_Z Y)]); auto.
  - rewrite string_app_nil_r, !py_int_print. reflexivity.
  - cbn [split_all]. change (Ascii.eqb "_" "_") with true. cbv iota.
    destruct (Ascii.eqb_spec cb "_"); [contradiction|]. rewrite E. reflexivity.
Qed.

(** ** What is served *)
Lemma process_total : forall c n now, wf_cfg c -> request_nr c = Ok n -> c_reps c <> [] ->
  process_media_segment c now = Ok (Serve (the_served c n (c_emsg_last c))) \/
  exists r, process_media_segment c now = Ok (Refuse r).
Proof.
  intros c n now W N R. unfold process_media_segment. rewrite N. cbn [bind].
  destruct (segment_reply_total c n now W) as [(_ & ->)|(_ & r & ->)]; cbn [bind].
  - left. destruct (c_reps c); [congruence|reflexivity].
  - right. eauto.
Qed.
Lemma served_open : forall c now sv, c_ext c = ".m4s" -> get_media c now = Ok (Serve sv) -> session_open c now.
Proof.
  intros c now sv E H. unfold get_media in H. rewrite E in H.
  change (negb (str_in ".m4s" [".m4s"%string; ".jpg"%string])) with false in H. cbv iota in H.
  destruct (Qltb now (first_segment_ast c)) eqn:A; [discriminate|].
  destruct (match c_aet c with None => false | Some e => Qltb (e + 60)%Q (inject_Z (py_int_of_Q now)) end) eqn:B; [discriminate|].
  split; [exact E|]. split; [apply first_segment_ast_spec; exact A|apply aet_spec; exact B].
Qed.
Lemma down_case : forall X Y m, 0 < X + Y -> 0 <= X -> (exists k, 0 <= k /\ m = X + k * (X + Y)) <-> X <= m /\ (X + Y | m - X).
Proof.
  intros X Y m P HX. split.
  - intros (k & K & ->). split; [nia|]. exists k. lia.
  - intros (L & (k & K)). exists k. split; [nia|lia].
Qed.
Lemma served_is : forall c n now b sv, wf_cfg c -> c_emsg_last c = false -> c_ext c = ".m4s" ->
  request_nr c = Ok n -> c_reps c <> [] -> going_down c (py_int_of_Q now) b ->
  get_media c now = Ok (Serve sv) -> sv = the_served c n b.
Proof.
  intros c n now b sv W EL EX RN RP G H.
  assert (SO := served_open _ _ _ EX H).
  assert (PT := process_total c n now W RN RP). rewrite EL in PT.
  destruct G as [NU|X Y b MU HX HY HT LB|X Y MU HX HY HT].
  - assert (M : media_request c n) by (constructor; auto).
    apply (proj1 (get_media_serve_iff _ _ _ _ W M)) in H. destruct H as (_ & ->). rewrite EL. reflexivity.
  - assert (PU := parse_two "u" "d" X Y HX HY ltac:(discriminate) ltac:(discriminate)).
    destruct (C49_up_down_pf c now _ X Y SO MU PU HX HY HT) as (D & U). cbv zeta in D, U.
    set (m := py_int_of_Q now mod 60) in *.
    rewrite (down_case X Y m HT HX) in LB.
    assert (ND : ~ ud_is_down X Y m) by (intros K; rewrite (D K) in H; discriminate).
    destruct (U ND) as (U1 & U2). destruct b.
    + assert (W' : wf_cfg (set_emsg_last true c)) by (destruct W; constructor; auto).
      destruct (process_total (set_emsg_last true c) n now W' RN RP) as [P|(r & P)].
      * rewrite (U2 (proj1 LB eq_refl) _ P) in H. injection H as <-. reflexivity.
      * rewrite (U2 (proj1 LB eq_refl) _ P) in H. discriminate.
    + assert (NL : ~ (X <= m /\ (X + Y | m - X))) by (intros K; apply LB in K; discriminate).
      rewrite (U1 NL) in H. destruct PT as [P|(r & P)]; rewrite P in H; [injection H as <-; reflexivity|discriminate].
  - assert (PU := parse_two "d" "u" X Y HX HY ltac:(discriminate) ltac:(discriminate)).
    destruct (C49_down_up_pf c now _ X Y SO MU PU HX HY HT) as (D & U). cbv zeta in D, U.
    set (m := py_int_of_Q now mod 60) in *.
    assert (ND : ~ du_is_down X Y m) by (intros K; rewrite (D K) in H; discriminate).
    rewrite (U ND) in H. destruct PT as [P|(r & P)]; rewrite P in H; [injection H as <-; reflexivity|discriminate].
Qed.
Lemma loop_start_shift : forall c n, wf_cfg c -> loop_start c (media_start c n) = shift c n.
Proof.
  intros c n W. unfold loop_start, shift. assert (D := wf_dur c W). assert (N := wf_n c W).
  assert (0 < c_seg_dur c * c_vod_n c) by (apply Z.mul_pos_pos; auto).
  assert (E := Z.div_mod (media_start c n) (c_seg_dur c * c_vod_n c) ltac:(lia)). lia.
Qed.
Lemma Q_in_last : forall c n, Q_in n (c_last_nrs c) = true <-> is_last c n.
Proof.
  intros c n. unfold Q_in, is_last. rewrite existsb_exists. split; intros (q & A & B); exists q; split; auto.
  - apply Qeq_bool_iff in B. symmetry. exact B.
  - apply Qeq_bool_iff. symmetry. exact B.
Qed.

Lemma video_events : forall p n d k, mp_scte35 p = n -> mp_seg_nr p = Some k -> mp_seg_duration p = d ->
  splice_events n d k (events p).
Proof.
  intros p n d k EN EK ED. unfold events. rewrite EN, EK, ED. split.
  - destruct (create_scte35box n (Some k) d) as [b|] eqn:Q; [|left; reflexivity]. destruct b as [|b0 b]; [left; reflexivity|].
    destruct (C34_message_pf n k d _ Q ltac:(discriminate)) as (t & S & P & T & _ & BX). right.
    split; [unfold create_scte35box in Q; destruct ((n <? 1) || (8 <? n)) eqn:E; [discriminate|lia]|]. exists t.
    split; [|auto]. rewrite BX. unfold splice_box. rewrite enc_leaf. cbn [app bdrop skipn]. reflexivity.
  - intros N D100 t S P L M T.
    assert (Q : exists b0 b, create_scte35box n (Some k) d = Ok (b0 :: b)).
    { unfold create_scte35box. destruct ((n <? 1) || (8 <? n)) eqn:E; [lia|].
      destruct (event_spec n k d N) as [(t' & EV & S' & P' & M' & T' & LE)|(_ & X)].
      - rewrite EV. specialize (LE t S P (minute_div _ _ _ M) T). rewrite scte35_box_ok.
        + unfold splice_box. rewrite enc_leaf. do 2 eexists. reflexivity.
        + split; [apply Z.div_pos; lia|]. assert (t' / 10 <= t / 10) by (apply Z.div_le_mono; lia). lia.
        + unfold touches in T'. lia.
      - destruct (X t S P (minute_div _ _ _ M) T). }
    destruct Q as (b0 & b & ->). discriminate.
Qed.
Lemma filter_sent : forall files c r rel n b now l out,
  wf_cfg c -> 0 <= now ->
  files rel (source_file c n) (c_ext c) = Ok (encs l) -> segment_ok l -> rep_type r <> "subtitles" ->
  filter_media_segment files c r rel (the_served c n b) None now = Ok out ->
  exists o, out = encs o /\ sent c r n now b l o.
Proof.
  intros files c r rel n b now l out W NN F OK NS H.
  assert (F' : files rel (sv_vod (the_served c n b)) (c_ext c) = Ok (encs l)) by exact F.
  assert (H0 := H). unfold filter_media_segment in H. rewrite F' in H. cbn [bind] in H.
  apply bind_ok in H. destruct H as ((o & st) & H & E). injection E as <-.
  set (p := segment_params c r (the_served c n b) None now) in *.
  assert (NT : mp_is_ttml p = false).
  { unfold p, segment_params. cbn [mp_is_ttml]. apply String.eqb_neq. exact NS. }
  apply media_filter_boxes in H; auto.
  destruct H as (l1 & l2 & g & size & TC & _ & INS & E & _).
  unfold prepared, prepared_size in TC. rewrite NT in TC.
  exists l2. split; [exact E|].
  assert (SP : rep_type r <> "video" -> events p = []).
  { intros Z. unfold events, p, segment_params. cbn [mp_scte35 mp_seg_nr mp_seg_duration].
    destruct (String.eqb_spec (rep_type r) "video") as [|_]; [contradiction|]. reflexivity. }
  exists (Q_in n (c_last_nrs c)), (events p),
    (if b then [Leaf (bstr "emsg") (emsg_payload (last_event p))] else []).
  unfold extras in INS. change (mp_emsg_last p) with b in INS.
  eexists. exists l1, g. split; [|split; [exact INS|]].
  { unfold req_of in TC. change (mp_seg_nr p) with (Some n) in TC. change (mp_timescale p) with (Some (rep_timescale r)) in TC.
    change (mp_offset p) with (loop_start c (media_start c n)) in TC. rewrite loop_start_shift in TC by exact W.
    exact TC. }
  split; [apply Q_in_last|]. split; [|split; [|split; [|split]]].
  - destruct b; [|reflexivity]. eexists. split; [reflexivity|].
    destruct (C32_calendar_pf now NN) as (y & m & d & hh & mi & ss & R & V & I).
    exists (make_timestamp now), y, m, d, hh, mi, ss. split; [|auto].
    unfold event_payload, emsg_payload, last_event. cbn [em_scheme em_value em_timescale em_delta em_duration em_id em_data].
    change (mp_now p) with (inject_Z now). unfold make_timestamp_Q. rewrite Qfloor_Z. rewrite <- !app_assoc. reflexivity.
  - destruct (mp_insert_sidx p); [|constructor].
    destruct (mp_timescale p), (ms_tfdt st), (ms_duration st); constructor; [reflexivity|constructor].
  - intros Z. change (mp_insert_sidx p) with (c_insert_sidx c). rewrite Z. reflexivity.
  - exact SP.
  - intros V. apply video_events; [unfold p, segment_params; cbn [mp_scte35]; rewrite V|..]; reflexivity.
Qed.

(** ** Replies *)
Lemma start_404 : forall l h b rp, (let* (rp, _) := start_reply 404 l h b in Ok rp) = Ok rp -> rp_status rp = 404.
Proof. intros l h b rp H. unfold start_reply in H. cbn [status_string bind Z.eqb Pos.eqb] in H. injection H as <-. reflexivity. Qed.
Lemma start_200 : forall l h b rp, (let* (rp, _) := start_reply 200 l h b in Ok rp) = Ok rp -> rp_status rp = 200 /\ rp_body rp = b.
Proof. intros l h b rp H. unfold start_reply in H. cbn [status_string bind Z.eqb Pos.eqb] in H. injection H as <-. split; reflexivity. Qed.
Lemma content_cases : forall s r now rp, hr_range r = None -> content_reply s r now = Ok rp ->
  match respond s r now with
  | Err _ | Ok (RError _) => rp_status rp = 404
  | Ok (RBytes b) => if match b with [] => true | _ => false end then rp_status rp = 404
                     else rp_status rp = 200 /\ rp_body rp = [b]
  | Ok (RChunked _ l) => rp_status rp = 200 /\ rp_body rp = l
  | Ok (RText _) => True
  end.
Proof.
  intros s r now rp R H. unfold content_reply in H. rewrite R in H.
  destruct (respond s r now) as [[b|t|t l|pl]|e].
  - destruct b as [|b0 b]; [eapply start_404; exact H|eapply start_200; exact H].
  - exact I.
  - eapply start_200. exact H.
  - eapply start_404. exact H.
  - eapply start_404. exact H.
Qed.
Lemma media_reply : forall limit s r now sid dflt c rp,
  admitted limit r now -> hr_range r = None -> provider_config s r now = Ok c -> c_ext c = ".m4s" -> not_chunked c ->
  fst (application limit s r now sid dflt) = Ok rp ->
  (rp_status rp = 404) \/
  (rp_status rp = 200 /\ exists sv, get_media c now = Ok (Serve sv) /\
     exists b, media_content s c sv false (py_int_of_Q now) = Ok (RBytes b) /\ rp_body rp = [b]) \/
  exists sv t l, get_media c now = Ok (Serve sv) /\ media_content s c sv false (py_int_of_Q now) = Ok (RChunked t l).
Proof.
  intros limit s r now sid dflt c rp AD R P E NC H. rewrite (admitted_content _ _ _ _ _ _ AD) in H. cbn [fst] in H.
  assert (K := content_cases _ _ _ _ R H). unfold respond in K. rewrite P in K. cbn [bind] in K. rewrite E in K.
  change (String.eqb ".m4s" ".m4s") with true in K. cbv iota in K.
  assert (CK : (match c_chunkdur c with Some q => Qltb 0 q | None => false end) = false).
  { destruct (c_chunkdur c) as [q|] eqn:Q; [|reflexivity]. apply Qltb_false. apply NC. exact Q. }
  rewrite CK in K. unfold media_response in K. destruct (get_media c now) as [[why|sv]|e] eqn:G; cbn [bind] in K; try (left; exact K).
  - rewrite E in K. change (String.eqb ".m4s" ".m4s") with true in K. cbv iota in K.
    destruct (media_content s c sv false (py_int_of_Q now)) as [[b|t|t l|pl]|e] eqn:M; try (left; exact K).
    + destruct b as [|b0 b]; [left; exact K|]. destruct K as (K1 & K2). right. left. split; [exact K1|].
      exists sv. split; [reflexivity|]. eexists. split; [exact M|exact K2].
    + exfalso. clear K. unfold media_content in M. destruct (c_reps c) as [|r1 [|r2 rs]]; [discriminate| |].
      * apply bind_ok in M. destruct M as (x & _ & M). discriminate.
      * apply bind_ok in M. destruct M as (x & _ & M). apply bind_ok in M. destruct M as (y & _ & M).
        apply bind_ok in M. destruct M as (z & _ & M). discriminate.
    + right. right. eauto.
Qed.

(** ** C67 *)
Lemma now_nonneg : forall q : Q, (0 <= q)%Q -> 0 <= py_int_of_Q q.
Proof.
  intros q H. unfold py_int_of_Q. replace (Qleb 0 q) with true by (symmetry; apply Qle_bool_iff; exact H).
  assert (F := Qfloor_resp_le _ _ H). exact F.
Qed.

Lemma served_window : forall c n now b sv, wf_cfg c -> c_ext c = ".m4s" ->
  request_nr c = Ok n -> c_reps c <> [] -> going_down c (py_int_of_Q now) b ->
  get_media c now = Ok (Serve sv) -> ProxySpec.session_started c now /\ session_not_over c now /\ available c n now.
Proof.
  intros c n now b sv W EX RN RP G H.
  assert (SO := served_open _ _ _ EX H). destruct SO as (_ & S1 & S2). split; [exact S1|]. split; [exact S2|].
  destruct (segment_reply_total c n now W) as [(A & _)|(A & r & E)]; [exact A|]. exfalso.
  assert (W' : wf_cfg (set_emsg_last true c)) by (destruct W; constructor; auto).
  destruct (segment_reply_total (set_emsg_last true c) n now W') as [(A' & _)|(A' & r' & E')]; [exact (A A')|].
  assert (P : process_media_segment c now = Ok (Refuse r)) by (unfold process_media_segment; rewrite RN; cbn [bind]; rewrite E; reflexivity).
  assert (P' : process_media_segment (set_emsg_last true c) now = Ok (Refuse r')).
  { unfold process_media_segment. change (request_nr (set_emsg_last true c)) with (request_nr c). rewrite RN. cbn [bind]. rewrite E'. reflexivity. }
  assert (SO := served_open _ _ _ EX H).
  destruct G as [NU|X Y b MU HX HY HT LB|X Y MU HX HY HT].
  - assert (M : media_request c n) by (constructor; auto).
    apply (proj1 (get_media_serve_iff _ _ _ _ W M)) in H. destruct H as ((_ & _ & K) & _). exact (A K).
  - assert (PU := parse_two "u" "d" X Y HX HY ltac:(discriminate) ltac:(discriminate)).
    destruct (C49_up_down_pf c now _ X Y SO MU PU HX HY HT) as (D & U). cbv zeta in D, U.
    set (m := py_int_of_Q now mod 60) in *.
    rewrite (down_case X Y m HT HX) in LB.
    assert (ND : ~ ud_is_down X Y m) by (intros K; rewrite (D K) in H; discriminate).
    destruct (U ND) as (U1 & U2). destruct b.
    + rewrite (U2 (proj1 LB eq_refl) _ P') in H. discriminate.
    + assert (NL : ~ (X <= m /\ (X + Y | m - X))) by (intros K; apply LB in K; discriminate).
      rewrite (U1 NL), P in H. discriminate.
  - assert (PU := parse_two "d" "u" X Y HX HY ltac:(discriminate) ltac:(discriminate)).
    destruct (C49_down_up_pf c now _ X Y SO MU PU HX HY HT) as (D & U). cbv zeta in D, U.
    assert (ND : ~ du_is_down X Y (py_int_of_Q now mod 60)) by (intros K; rewrite (D K) in H; discriminate).
    rewrite (U ND), P in H. discriminate.
Qed.
Lemma sibling_beside : forall rel id dir, beside rel id dir -> sibling rel id = dir.
Proof.
  intros rel id dir H. unfold sibling. destruct H as [x id N|d x id N].
  - rewrite split_without by exact N. reflexivity.
  - assert (S : split_all "/" (d ++ "/" ++ x) = (split_all "/" d ++ [x])%list).
    { rewrite <- (join_split d) at 1. assert (NE := split_nonempty "/" d). assert (NS := split_parts_no_slash d).
      rewrite <- (split_join (split_all "/" d ++ [x])%list).
      - rewrite join_app; [reflexivity|exact NE|discriminate].
      - destruct (split_all "/" d); discriminate.
      - apply Forall_app. split; [exact NS|]. constructor; [exact N|constructor]. }
    rewrite S. unfold py_init. rewrite removelast_last. rewrite join_app; [|apply split_nonempty|discriminate].
    rewrite join_split. reflexivity.
Qed.

(** One representation: refused with a text, or the stored segment of the loop,
    sent as segment [n] inside its window. *)
Lemma C67_single_pf : forall limit s r now sid history c rep n down l rp,
  admitted limit r now -> hr_range r = None -> site_ok s -> (0 <= now)%Q ->
  provider_config s r now = Ok c -> c_ext c = ".m4s" -> not_chunked c -> request_nr c = Ok n ->
  c_reps c = [rep] -> rep_type rep <> "subtitles" -> going_down c (py_int_of_Q now) down ->
  st_files s (c_content_name c) (c_rel_path c) (source_file c n) ".m4s" = Ok (encs l) -> segment_ok l ->
  fst (application limit s r now sid (run limit s history [])) = Ok rp ->
  rp_status rp = 404 \/
  rp_status rp = 200 /\ ProxySpec.session_started c now /\ session_not_over c now /\ available c n now /\
  exists out, rp_body rp = [encs out] /\ sent c rep n (py_int_of_Q now) down l out.
Proof.
  intros limit s r now sid history c rep n down l rp AD R SK NN P E NC RN RP NS G F OK H.
  destruct (provider_wf _ _ _ _ SK P) as (W & EL).
  assert (RPN : c_reps c <> []) by (rewrite RP; discriminate).
  destruct (media_reply _ _ _ _ _ _ _ _ AD R P E NC H) as [K|[(K & sv & GM & b & M & B)|(sv & t & ch & _ & M)]].
  - left. exact K.
  - right. split; [exact K|]. destruct (served_window _ _ _ _ _ W E RN RPN G GM) as (A1 & A2 & A3).
    split; [exact A1|]. split; [exact A2|]. split; [exact A3|].
    rewrite (served_is _ _ _ _ _ W EL E RN RPN G GM) in M. unfold media_content in M. rewrite RP in M.
    unfold plain_segment in M. rewrite RP in M. apply bind_ok in M. destruct M as (x & M & Z). injection Z as ->.
    destruct (filter_sent _ _ _ _ _ _ _ l _ W (now_nonneg _ NN) ltac:(rewrite E; exact F) OK NS M) as (o & -> & SE).
    exists o. split; [exact B|exact SE].
  - exfalso. unfold media_content in M. rewrite RP in M. apply bind_ok in M. destruct M as (x & _ & M). discriminate.
Qed.

(** Two representations: both segments are sent as above, and put together. *)
Lemma C67_muxed_pf : forall limit s r now sid history c rep1 rep2 dir1 dir2 n down l1 l2 rp,
  admitted limit r now -> hr_range r = None -> site_ok s -> (0 <= now)%Q ->
  provider_config s r now = Ok c -> c_ext c = ".m4s" -> not_chunked c -> request_nr c = Ok n ->
  c_reps c = [rep1; rep2] -> rep_type rep1 <> "subtitles" -> rep_type rep2 <> "subtitles" ->
  going_down c (py_int_of_Q now) down ->
  beside (c_rel_path c) (rep_id rep1) dir1 -> beside (c_rel_path c) (rep_id rep2) dir2 ->
  st_files s (c_content_name c) dir1 (source_file c n) ".m4s" = Ok (encs l1) -> segment_ok l1 ->
  st_files s (c_content_name c) dir2 (source_file c n) ".m4s" = Ok (encs l2) -> segment_ok l2 ->
  fst (application limit s r now sid (run limit s history [])) = Ok rp ->
  rp_status rp = 404 \/
  rp_status rp = 200 /\ ProxySpec.session_started c now /\ session_not_over c now /\ available c n now /\
  exists out1 out2,
    sent c rep1 n (py_int_of_Q now) down l1 out1 /\ sent c rep2 n (py_int_of_Q now) down l2 out2 /\
    forall a b, out1 = seg_of a -> out2 = seg_of b -> fragment_ok a -> fragment_ok b ->
      blen (fr_mfhd a) = blen (fr_mfhd b) -> blen (encs out1) + blen (encs out2) < 4294967296 ->
      designates_media a 0 -> designates_media b 0 ->
      exists o1 o2, rp_body rp = [encs (joint a b o1 o2)] /\
        (forall k, designates_media a k ->
           bslice (joint_moof_at a + o1) (joint_moof_at a + o1 + k) (encs (joint a b o1 o2)) =
           bslice (moof_at a + fr_offset a) (moof_at a + fr_offset a + k) (encs out1)) /\
        (forall k, designates_media b k ->
           bslice (joint_moof_at a + o2) (joint_moof_at a + o2 + k) (encs (joint a b o1 o2)) =
           bslice (moof_at b + fr_offset b) (moof_at b + fr_offset b + k) (encs out2)).
Proof.
  intros limit s r now sid history c rep1 rep2 dir1 dir2 n down l1 l2 rp AD R SK NN P E NC RN RP NS1 NS2 G B1 B2 F1 OK1 F2 OK2 H.
  destruct (provider_wf _ _ _ _ SK P) as (W & EL).
  assert (RPN : c_reps c <> []) by (rewrite RP; discriminate).
  destruct (media_reply _ _ _ _ _ _ _ _ AD R P E NC H) as [K|[(K & sv & GM & b & M & B)|(sv & t & ch & _ & M)]].
  - left. exact K.
  - right. split; [exact K|]. destruct (served_window _ _ _ _ _ W E RN RPN G GM) as (A1 & A2 & A3).
    split; [exact A1|]. split; [exact A2|]. split; [exact A3|].
    rewrite (served_is _ _ _ _ _ W EL E RN RPN G GM) in M. unfold media_content in M. rewrite RP in M.
    rewrite (sibling_beside _ _ _ B1), (sibling_beside _ _ _ B2) in M.
    apply bind_ok in M. destruct M as (x & M1 & M). apply bind_ok in M. destruct M as (y & M2 & M).
    apply bind_ok in M. destruct M as (z & M & Z). injection Z as ->.
    destruct (filter_sent _ _ _ _ _ _ _ l1 _ W (now_nonneg _ NN) ltac:(rewrite E; exact F1) OK1 NS1 M1) as (o1 & -> & SE1).
    destruct (filter_sent _ _ _ _ _ _ _ l2 _ W (now_nonneg _ NN) ltac:(rewrite E; exact F2) OK2 NS2 M2) as (o2 & -> & SE2).
    exists o1, o2. split; [exact SE1|]. split; [exact SE2|].
    intros fa fb -> -> FA FB HM HS DA DB.
    destruct (C39_joint_partial_pf fa fb FA FB HM HS DA DB) as (p1 & p2 & J & Q1 & Q2).
    rewrite J in M. injection M as <-. exists p1, p2. split; [exact B|]. split; [exact Q1|exact Q2].
  - exfalso. unfold media_content in M. rewrite RP in M. apply bind_ok in M. destruct M as (x & _ & M).
    apply bind_ok in M. destruct M as (y & _ & M). apply bind_ok in M. destruct M as (z & _ & M). discriminate.
Qed.

(** ** A URL without options *)
Lemma default_config : forall s r now first name rp ct m v n,
  hr_path r = "/" ++ first ++ "/" ++ name ++ "/" ++ rp ++ "/" ++ print_Z n ++ ".m4s" ->
  no_slash first -> no_slash name -> no_slash rp -> plain_name name -> split_dunder rp = [rp] ->
  st_vod s name = Ok v -> content_type_for_rep (v_media v) rp = Some (ct, m) -> 0 <= n ->
  exists c, provider_config s r now = Ok c /\
    c_ext c = ".m4s" /\ request_nr c = Ok n /\ c_reps c = [mkRep rp ct (m_timescale m)] /\ c_rel_path c = rp /\
    c_content_name c = name /\ c_seg_dur c = v_dur v /\ c_vod_n c = v_n v /\ c_vod_first c = v_first v /\
    c_ato c = Some 0%Q /\ c_tsbd c = Some (v_tsbd v) /\ c_ast c = 0 /\ c_start_nr c = 0 /\ c_timeoffset c = None /\
    c_stop_time c = None /\ c_last_nrs c = [] /\ c_aet c = None /\ c_multi_url c = [] /\ c_chunkdur c = None /\
    c_insert_sidx c = false /\ c_scte35 c = 0 /\ c_emsg_last c = false.
Proof.
  intros s r now first name rp ct m v n HP S1 S2 S3 PN SD HV CT HN.
  destruct (print_Z_digits n HN) as (D1 & D2 & D3).
  assert (S4 : no_slash (print_Z n ++ ".m4s")).
  { apply no_slash_app; [|unfold no_slash; cbn; intuition discriminate].
    exact (number_no_slash "" n ltac:(unfold no_slash; cbn; tauto)). }
  assert (PP : path_parts r = ["" ; first; name; rp; print_Z n ++ ".m4s"]).
  { unfold path_parts. rewrite HP. rewrite split_slash, !split_app_slash by assumption. rewrite split_no_slash by exact S4. reflexivity. }
  unfold provider_config. rewrite PP. set (base := _ ++ _). clearbody base.
  change [name; rp; print_Z n ++ ".m4s"] with (media_parts [] name rp (print_Z n ++ ".m4s")).
  rewrite process_url_media by (auto; constructor). cbn [fold_opts bind]. rewrite HV. cbn [bind].
  assert (EX : splitext (print_Z n ++ ".m4s") = (print_Z n, ".m4s")).
  { apply (splitext_ext (print_Z n) "m4s"); [intros x Hx; eapply all_digits_no_dot; eauto|exact D3|].
    simpl. intros x [<-|[<-|[<-|[]]]]; discriminate. }
  unfold finish_url. rewrite (reps_media _ v [] name rp _ ct m SD CT). cbn [bind].
  set (c0 := update_with_vodcfg _ v). change (u_start (filedata _ _ _ _ _)) with (@None Z).
  change (u_cont (filedata _ _ _ _ _)) with false. change (u_mod (filedata _ _ _ _ _)) with (@None modulo).
  change (u_addloc (filedata _ _ _ _ _)) with false. change (u_toff (filedata _ _ _ _ _)) with (@None Z).
  cbn [bind]. change (c_tfdt32 c0) with false. cbn iota. cbn [bind].
  assert (UP : exists q, update_publish_time (py_int_of_Q now) c0 = Ok (set_publish_time q c0)).
  { exists 0%Q. unfold update_publish_time. change (c_ast c0) with 0. reflexivity. }
  destruct UP as (q & ->). cbn [bind].
  eexists. split; [reflexivity|].
  split; [cbn -[splitext print_Z append]; rewrite EX; reflexivity|].
  split; [apply C29_number_addressing_pf; [exact HN|rewrite <- print_Z_nonneg by exact HN; reflexivity]|].
  repeat (split; [reflexivity|]). reflexivity.
Qed.

(** Segment [n] of duration d is delivered from (n+1)d to (n+2)d plus the
    time-shift depth, and it is stored segment n mod N of the loop, n/N loops
    later. *)
Lemma C67_default_url_pf : forall limit s r now sid history first name rp ct m v n reply,
  admitted limit r now -> hr_range r = None -> site_ok s -> (0 <= now)%Q ->
  hr_path r = "/" ++ first ++ "/" ++ name ++ "/" ++ rp ++ "/" ++ print_Z n ++ ".m4s" ->
  no_slash first -> no_slash name -> no_slash rp -> plain_name name -> split_dunder rp = [rp] ->
  st_vod s name = Ok v -> content_type_for_rep (v_media v) rp = Some (ct, m) -> ct <> "subtitles" -> 0 <= n ->
  fst (application limit s r now sid (run limit s history [])) = Ok reply ->
  let d := v_dur v in let N := v_n v in
  (~ (inject_Z ((n + 1) * d) <= now <= inject_Z ((n + 2) * d + v_tsbd v))%Q -> rp_status reply = 404) /\
  forall l, st_files s name rp (v_first v + n mod N) ".m4s" = Ok (encs l) -> segment_ok l ->
    rp_status reply = 404 \/
    rp_status reply = 200 /\
    exists out g, rp_body reply = [encs out] /\
      top_changes (MediaSpec.mk_request (Some n) (n / N * (N * d) * m_timescale m) false None []) 0 l out g.
Proof.
  intros limit s r now sid history first name rp ct m v n reply AD R SK NN HP S1 S2 S3 PN SD HV CT NS HN H d N.
  destruct (default_config s r now first name rp ct m v n HP S1 S2 S3 PN SD HV CT HN)
    as (c & P & f1 & f2 & f3 & f4 & f5 & f6 & f7 & f8 & f9 & f10 & f11 & f12 & f13 & f14 & f15 & f16 & f17 & f18 & f19 & f20 & f21).
  destruct (provider_wf _ _ _ _ SK P) as (W & _). assert (Wd := wf_dur c W). assert (Wn := wf_n c W). rewrite f6 in Wd. rewrite f7 in Wn. fold d in Wd. fold N in Wn.
  assert (NC : not_chunked c) by (intros q Q; rewrite f18 in Q; discriminate).
  assert (MR : media_request c n) by (constructor; auto; [rewrite f3; discriminate|intros u; rewrite f17; discriminate]).
  assert (FN : first_nr c = 0) by (unfold first_nr; rewrite f12, f13; reflexivity).
  assert (MS : media_start c n = n * d) by (unfold media_start, media_time_at_ast; rewrite f13, FN, f6; fold d; lia).
  assert (SF : source_file c n = v_first v + n mod N).
  { unfold source_file. rewrite MS, f6, f7, f8. fold d. fold N. rewrite Z.div_mul by lia. reflexivity. }
  assert (SH : shift c n = n / N * (N * d)).
  { unfold shift. rewrite MS, f6, f7. fold d. fold N. rewrite (Z.mul_comm d N). rewrite Z.div_mul_cancel_r by lia. reflexivity. }
  split.
  - intros OUT. destruct (media_reply _ _ _ _ _ _ _ _ AD R P f1 NC H) as [K|[(K & sv & GM & b & M & B)|(sv & t & ch & GM & M)]]; [exact K|..]; exfalso; apply OUT.
    all: destruct (C01_media_window_exact_pf c n now _ _ W MR f9 f10 f14 f15 f16) as ((C1 & _) & _);
      destruct (C1 (ex_intro _ sv GM)) as (_ & C2 & C3); rewrite FN, f11, f6 in C2, C3; fold d in C2, C3;
      rewrite Z.sub_0_r in C2, C3; cbn [Z.add] in C2, C3; split; [|exact C3];
      (eapply Qle_trans; [|exact C2]); unfold Qminus; rewrite Qplus_0_r; apply Qle_refl.
  - intros l F OK.
    destruct (C67_single_pf limit s r now sid history c _ n false l reply AD R SK NN P f1 NC f2 f3) as [K|(K & _ & _ & _ & o & B & SE)]; auto.
    + apply gd_plain. intros u. rewrite f17. discriminate.
    + rewrite f4, f5, SF. exact F.
    + right. split; [exact K|]. destruct SE as (last & ev & e & sx & l1 & g & TC & INS & LA & E & _ & SX & EV1 & EV2).
      cbn in E. subst e. rewrite (SX f19) in INS. cbn [app] in INS.
      assert (o = l1).
      { destruct INS as [(a & x & y & -> & _ & _ & ->)|(_ & ->)]; reflexivity. } subst l1.
      exists o, g. split; [exact B|]. rewrite SH in TC. cbn [rep_timescale] in TC.
      replace last with false in TC.
      2:{ destruct last; [|reflexivity]. destruct (proj1 LA eq_refl) as (q & X & _). rewrite f15 in X. destruct X. }
      replace ev with (@nil box) in TC; [exact TC|].
      destruct (string_dec ct "video") as [Z|Z].
      * destruct (EV2 Z) as ([-> |(X & _)] & _); [reflexivity|]. rewrite f20 in X. lia.
      * symmetry. apply EV1. exact Z.
Qed.

(** ** Concrete cases *)
(** The same two segments for all numbers. *)
Definition two_site : site :=
  mk_site ex_read
    (fun name rel n ext => if String.eqb rel "V1" then Ok (encs (seg_of ex_frag1)) else
                           if String.eqb rel "A1" then Ok (encs (seg_of ex_frag2)) else Ok (encs ex_l))
    (fun _ _ _ => Err "FileNotFoundError") (fun _ _ _ => Err "KeyError")
    (fun why c now => "refused " ++ c_filename c).
Lemma two_site_ok : site_ok two_site.
Proof.
  intros name v H. cbn in H. unfold ex_read in H. destruct (String.eqb name "testpic"); [|discriminate].
  injection H as <-. vm_compute. split; reflexivity.
Qed.
(** At second 200 the server is up for the last second: segment 31 of V2 comes
    with the event. *)
Example C67_single_case :
  let r := ex_request "/livesim/baseurl_u20_d10/testpic/V2/31.m4s" None in
  exists c rp, provider_config two_site r 200 = Ok c /\ not_chunked c /\ request_nr c = Ok 31 /\
    c_reps c = [mkRep "V2" "video" 90000] /\ going_down c 200 true /\
    st_files two_site (c_content_name c) (c_rel_path c) (source_file c 31) ".m4s" = Ok (encs ex_l) /\ segment_ok ex_l /\
    fst (application 0 two_site r 200 "" (run 0 two_site [] [])) = Ok rp /\ rp_status rp = 200.
Proof.
  cbn zeta. do 2 eexists. split; [vm_compute; reflexivity|]. split; [intros q Q; discriminate|].
  split; [vm_compute; reflexivity|]. split; [reflexivity|].
  split; [apply (gd_up_first _ _ 20 10); [reflexivity|lia|lia|lia|]; split; [intros _; exists 0; split; [lia|reflexivity]|reflexivity]|].
  split; [vm_compute; reflexivity|]. split; [exact ex_l_ok|]. split; [vm_compute; reflexivity|]. reflexivity.
Qed.
(** Segment 31 of V1 and A1 together. *)
Definition mux_nr (f : fragment) (nr : bytes) : fragment :=
  mk_fragment (fr_before f) (fr_styp f) [] nr (fr_kids1 f) (fr_version f) (fr_flags f) (fr_count f) (fr_offset f)
    (fr_rest f) (fr_kids2 f) (fr_mdat f).
Definition ex_out1 : fragment := mux_nr ex_frag1 ([0; 0; 0; 0] ++ be32 31)%list.
Definition ex_out2 : fragment := mux_nr ex_frag2 ([0; 0; 0; 0] ++ be32 31)%list.
Ltac stored_tac :=
  unfold segment_ok;
  cbv [seg_of ex_frag1 ex_frag2 ex_fragment before_moof fr_before fr_styp fr_after fr_mfhd fr_offset fr_mdat traf_with run_payload
       fr_version fr_flags fr_count fr_rest fr_kids1 fr_kids2 app];
  repeat match goal with
  | |- boxes_ok _ _ (_ :: _) => split
  | |- boxes_ok _ _ [] => exact I
  | |- box_ok _ _ (Node _ _) => apply box_ok_node; split; [reflexivity|]; split; [simpl; auto|]; split; [reflexivity|]
  | |- box_ok _ _ (Leaf _ _) => split; [reflexivity|]; split; [cbn; intuition discriminate|]; split; [reflexivity|];
      split; [|bytes_tac]
  end;
  first [ apply (L_mfhd [0;0;0;0]); reflexivity
        | apply (L_tfhd [0;2;0;0] [0;0;0;1] [] [] [] []); reflexivity
        | apply (L_tfhd [0;2;0;0] [0;0;0;2] [] [] [] []); reflexivity
        | apply (L_styp [bstr "msdh"; [0;0;0;0]]); repeat constructor
        | apply L_other; cbn [In]; intuition discriminate ].
Lemma ex_frag1_seg : segment_ok (seg_of ex_frag1).
Proof. stored_tac. Qed.
Lemma ex_frag2_seg : segment_ok (seg_of ex_frag2).
Proof. stored_tac. Qed.
Example C67_muxed_case :
  let r := ex_request "/livesim/testpic/V1__A1/31.m4s" None in
  exists c rp o1 o2, provider_config two_site r 200 = Ok c /\ not_chunked c /\ request_nr c = Ok 31 /\
    c_reps c = [mkRep "V1" "video" 90000; mkRep "A1" "audio" 48000] /\ going_down c 200 false /\
    beside (c_rel_path c) "V1" "V1" /\ beside (c_rel_path c) "A1" "A1" /\
    st_files two_site (c_content_name c) "V1" (source_file c 31) ".m4s" = Ok (encs (seg_of ex_frag1)) /\
    st_files two_site (c_content_name c) "A1" (source_file c 31) ".m4s" = Ok (encs (seg_of ex_frag2)) /\
    segment_ok (seg_of ex_frag1) /\ segment_ok (seg_of ex_frag2) /\
    fst (application 0 two_site r 200 "" (run 0 two_site [] [])) = Ok rp /\ rp_status rp = 200 /\
    rp_body rp = [encs (joint ex_out1 ex_out2 o1 o2)] /\
    blen (fr_mfhd ex_out1) = blen (fr_mfhd ex_out2) /\ designates_media ex_out1 10 /\ designates_media ex_out2 9.
Proof.
  cbn zeta. do 2 eexists. exists 140, 152. split; [vm_compute; reflexivity|]. split; [intros q Q; discriminate|].
  split; [vm_compute; reflexivity|]. split; [reflexivity|].
  split; [apply gd_plain; discriminate|].
  split; [apply be_top; vm_compute; intuition discriminate|]. split; [apply be_top; vm_compute; intuition discriminate|].
  split; [reflexivity|]. split; [reflexivity|]. split; [exact ex_frag1_seg|]. split; [exact ex_frag2_seg|].
  split; [vm_compute; reflexivity|]. split; [reflexivity|]. split; [vm_compute; reflexivity|].
  split; [reflexivity|]. split; repeat split; vm_compute; discriminate.
Qed.
(** Segment 31 of V2 at second 200, and too late. *)
Example C67_default_case :
  let r := ex_request "/livesim/testpic/V2/31.m4s" None in
  hr_path r = "/" ++ "livesim" ++ "/" ++ "testpic" ++ "/" ++ "V2" ++ "/" ++ print_Z 31 ++ ".m4s" /\
  no_slash "livesim" /\ no_slash "testpic" /\ no_slash "V2" /\ plain_name "testpic" /\ split_dunder "V2" = ["V2"] /\
  content_type_for_rep (v_media ex_vod) "V2" = Some ("video", mkMedia 90000 ["V1"; "V2"] None None) /\
  (exists rp, fst (application 0 two_site r 200 "" (run 0 two_site [] [])) = Ok rp /\ rp_status rp = 200) /\
  (exists rp, fst (application 0 two_site r 500 "" (run 0 two_site [] [])) = Ok rp /\ rp_status rp = 404).
Proof.
  cbn zeta. repeat (split; [first [reflexivity | unfold no_slash; vm_compute; intuition discriminate]|]).
  split; eexists; split; vm_compute; reflexivity.
Qed.
