(** Properties C45-C47 and C60 of the WSGI application. *)
From Coq Require Import ZifyBool ZifyNat.
From Verif Require Import Base BaseProofs BytesModel BytesProofs StrModel ConfigModel ConfigProofs ProxyModel HttpModel HttpSpec
  HttpProofs Mpd2Spec Mpd2Proofs OptionsProofs OptionsTheory ProxyTheory.
Local Open Scope string_scope.
Open Scope Z_scope.

(** A site with one thumbnail file of ten bytes for all numbers and one
    manifest. *)
Definition ex_site : site :=
  mk_site ex_read
    (fun name rel n ext => if String.eqb ext ".jpg" then Ok [0;1;2;3;4;5;6;7;8;9] else Err "FileNotFoundError")
    (fun _ _ _ => Err "FileNotFoundError")
    (fun c _ _ => Ok ("<MPD>" ++ c_base_url c ++ "</MPD>"))
    (fun why c now => "refused " ++ c_filename c).
Definition ex_request (path : string) (range : option string) : http_request :=
  mk_request "h" path "" false range ("ParseResult " ++ path).
Definition ex_thumb : http_request := ex_request "/livesim/testpic/V1/20.jpg" None.

(** ** Admission *)
Lemma admitted_content : forall limit s r now sid dflt, admitted limit r now ->
  application limit s r now sid dflt = (content_reply s r now, dflt).
Proof.
  intros limit s r now sid dflt [-> | (t & S & A & B)]; unfold application; [reflexivity|].
  rewrite (session_some _ _ S). destruct (limit =? 0); [reflexivity|].
  assert (Qltb (inject_Z (t + limit)) now = false) as -> by (apply Qltb_false; exact A).
  assert (Qltb (now + 5) (inject_Z t) = false) as -> by (apply Qltb_false; exact B). reflexivity.
Qed.

Ltac simpl_start := unfold start_reply; cbn [status_string bind Z.eqb Pos.eqb].

(** ** Byte ranges *)
Definition whole_reply (s : site) (r : http_request) (now : Q) (payload : bytes) : result reply :=
  let mime := [("Content-Type", Some (get_mime_type (url_ext r)))] in
  match hr_range r with
  | Some (String a l) =>
      let* (out, range) := handle_byte_range payload (String a l) in
      match range with
      | Some "" => let* (rp, _) := start_reply 200 (blen out) mime [out] in Ok rp
      | _ => let* (rp, _) := start_reply 206 (blen out) (put "Content-Range" range mime) [out] in Ok rp
      end
  | _ => let* (rp, _) := start_reply 200 (blen payload) mime [payload] in Ok rp
  end.
Lemma delivers_reply : forall s r now payload, delivers s r now payload ->
  content_reply s r now = whole_reply s r now payload.
Proof.
  intros s r now payload (N & [H | (t & H & ->)]); unfold content_reply; rewrite H.
  - destruct payload; [contradiction|reflexivity].
  - destruct (encode_utf8 t); [contradiction|reflexivity].
Qed.
Lemma cut_range : forall payload a b s r now unit text rg,
  hr_range r = Some (unit ++ "=" ++ text) -> spells rg text ->
  handle_byte_range payload (unit ++ "=" ++ text) = Ok (cut payload a b) -> 0 <= a -> b < blen payload ->
  exists rp, whole_reply s r now payload = Ok rp /\
   if b <? a then rp_status rp = 200 /\ rp_body rp = [payload] /\ no_header rp "Content-Range" /\ header_is rp "Content-Length" (print_Z (blen payload))
   else exists out, rp_status rp = 206 /\ rp_body rp = [out] /\ part_of payload a b out /\
        header_is rp "Content-Range" ("bytes " ++ print_Z a ++ "-" ++ print_Z b ++ "/" ++ print_Z (blen payload)) /\
        header_is rp "Content-Length" (print_Z (blen out)).
Proof.
  intros payload a b s r now unit text rg R S H A B. unfold whole_reply. rewrite R.
  destruct (unit ++ "=" ++ text) as [|x l] eqn:E; [destruct unit; discriminate|].
  rewrite H. cbn [bind]. unfold cut. destruct (Z.ltb_spec b a) as [G|G]; simpl_start.
  - eexists. split; [reflexivity|]. cbn [rp_status rp_body]. split; [reflexivity|]. split; [reflexivity|].
    unfold no_header, header_is. cbn [rp_headers]. rewrite headers_typed by apply blen_nonneg. split; reflexivity.
  - unfold range_text. cbn [append]. eexists. split; [reflexivity|].
    exists (py_slice a (b + 1) payload). cbn [rp_status rp_body].
    split; [reflexivity|]. split; [reflexivity|]. split; [apply slice_part; assumption|].
    unfold header_is. cbn [rp_headers]. rewrite headers_range by apply blen_nonneg. split; reflexivity.
Qed.
Lemma C45_range_partial_pf : forall limit s r now sid dflt payload unit text rg,
  admitted limit r now -> delivers s r now payload ->
  hr_range r = Some (unit ++ "=" ++ text) -> spells rg text ->
  (forall n, rg = LastBytes n -> n <= blen payload) ->
  exists rp, fst (application limit s r now sid dflt) = Ok rp /\ range_reply payload rg rp.
Proof.
  intros limit s r now sid dflt payload unit text rg A D R S L. rewrite (admitted_content _ _ _ _ _ _ A).
  cbn [fst]. rewrite (delivers_reply _ _ _ _ D). clear A.
  assert (P : 0 < blen payload). { destruct D as (N & _). destruct payload; [contradiction|]. unfold blen. cbn [List.length]. lia. }
  pose proof (handle_range unit rg text payload S) as H. unfold range_reply.
  destruct rg as [a b|a|n]; cbn [positions].
  - assert (A : 0 <= a) by (inversion S; subst; eapply decimal_nonneg; eassumption).
    destruct (cut_range _ _ _ s r now _ _ _ R S H A ltac:(lia)) as (rp & E & K). exists rp. split; [exact E|].
    destruct ((a <=? b) && (a <? blen payload))%bool eqn:G; destruct (Z.ltb_spec (Z.min b (blen payload - 1)) a); try (exfalso; lia); exact K.
  - assert (A : 0 <= a) by (inversion S; subst; eapply decimal_nonneg; eassumption).
    destruct (cut_range _ _ _ s r now _ _ _ R S H A ltac:(lia)) as (rp & E & K). exists rp. split; [exact E|].
    destruct (a <? blen payload)%bool eqn:G; destruct (Z.ltb_spec (blen payload - 1) a); try (exfalso; lia); exact K.
  - specialize (L n eq_refl). assert (A : 0 <= n) by (inversion S; subst; eapply decimal_nonneg; eassumption).
    destruct (cut_range _ _ _ s r now _ _ _ R S H ltac:(lia) ltac:(lia)) as (rp & E & K). exists rp. split; [exact E|].
    destruct ((0 <? n) && (0 <? blen payload))%bool eqn:G; destruct (Z.ltb_spec (blen payload - 1) (blen payload - n)); try (exfalso; lia); try exact K.
    replace (Z.max 0 (blen payload - n)) with (blen payload - n) by lia. exact K.
Qed.
(** The thumbnail of ten bytes, bytes 3 to 5, and the last four. *)
Example ex_range : let r := ex_request "/livesim/testpic/V1/20.jpg" (Some "bytes=03-5") in
  admitted 0 r 200 /\ delivers ex_site r 200 [0;1;2;3;4;5;6;7;8;9] /\ spells (Between 3 5) "03-5" /\
  exists rp, fst (application 0 ex_site r 200 "" []) = Ok rp /\ rp_status rp = 206 /\ rp_body rp = [[3;4;5]] /\
    header "Content-Range" (rp_headers rp) = Some (Some "bytes 3-5/10").
Proof.
  split; [left; reflexivity|]. split; [split; [discriminate|left; vm_compute; reflexivity]|]. split.
  - apply (sp_between 3 5 "03" "5").
    + apply (dec_more "0" 0 "3"); [apply (dec_one "0")|]; cbv; lia.
    + apply (dec_one "5"). cbv; lia.
  - eexists. split; [vm_compute; reflexivity|]. repeat split.
Qed.
Lemma C45_no_bounds_partial_pf : forall limit s r now sid dflt payload unit,
  admitted limit r now -> delivers s r now payload -> hr_range r = Some (unit ++ "=-") ->
  exists rp, fst (application limit s r now sid dflt) = Ok rp /\
    rp_status rp = 200 /\ rp_body rp = [payload] /\ no_header rp "Content-Range".
Proof.
  intros limit s r now sid dflt payload unit A D R. rewrite (admitted_content _ _ _ _ _ _ A).
  cbn [fst]. rewrite (delivers_reply _ _ _ _ D). unfold whole_reply. rewrite R.
  destruct (unit ++ "=-") as [|x l] eqn:E; [destruct unit; discriminate|]. rewrite <- E.
  unfold handle_byte_range. change (unit ++ "=-") with (unit ++ String "=" "-").
  rewrite split_last by (unfold without; cbn; intuition discriminate). cbn [split_all Ascii.eqb Bool.eqb bind String.eqb].
  simpl_start. eexists. split; [reflexivity|]. split; [reflexivity|]. split; [reflexivity|].
  unfold no_header. cbn [rp_headers]. rewrite headers_typed by apply blen_nonneg. reflexivity.
Qed.
Example ex_no_bounds : let r := ex_request "/livesim/testpic/V1/20.jpg" (Some "bytes=-") in
  admitted 0 r 200 /\ delivers ex_site r 200 [0;1;2;3;4;5;6;7;8;9] /\ hr_range r = Some ("bytes" ++ "=-").
Proof. split; [left; reflexivity|]. split; [split; [discriminate|left; vm_compute; reflexivity]|reflexivity]. Qed.
(** More last bytes than there are: not all bytes, and no true positions. *)
Lemma C45_long_suffix_refuted_pf : exists s r now payload text n rp,
  delivers s r now payload /\ hr_range r = Some ("bytes=" ++ text) /\ spells (LastBytes n) text /\
  fst (application 0 s r now "" []) = Ok rp /\ ~ range_reply payload (LastBytes n) rp /\
  rp_body rp = [[8; 9]] /\ header_is rp "Content-Range" "bytes -2-9/10".
Proof.
  exists ex_site, (ex_request "/livesim/testpic/V1/20.jpg" (Some "bytes=-12")), 200%Q, [0;1;2;3;4;5;6;7;8;9], "-12", 12.
  eexists. split; [split; [discriminate|left; vm_compute; reflexivity]|]. split; [reflexivity|].
  split; [apply (sp_last 12 "12"), (dec_more "1" 1 "2"); [apply (dec_one "1")|]; cbv; lia|].
  split; [vm_compute; reflexivity|]. split; [|split; reflexivity].
  intros (out & _ & E & (before & after & _ & _ & L) & _). cbn [rp_body] in E. injection E as <-. discriminate L.
Qed.
(** A malformed range is an exception outside the handler: no reply at all. *)
Lemma C45_malformed_refuted_pf : exists s r now payload,
  delivers s r now payload /\ hr_range r = Some "bytes=abc" /\
  fst (application 0 s r now "" []) = Err "ValueError".
Proof.
  exists ex_site, (ex_request "/livesim/testpic/V1/20.jpg" (Some "bytes=abc")), 200%Q, [0;1;2;3;4;5;6;7;8;9].
  split; [split; [discriminate|left; vm_compute; reflexivity]|]. split; [reflexivity|]. vm_compute. reflexivity.
Qed.
(** Several ranges: the whole payload as partial content, with None as the value
    of Content-Range. *)
Lemma C45_several_refuted_pf : exists s r now payload rp,
  delivers s r now payload /\ hr_range r = Some "bytes=0-1,3-4" /\
  fst (application 0 s r now "" []) = Ok rp /\ rp_status rp = 206 /\ rp_body rp = [payload] /\
  header "Content-Range" (rp_headers rp) = Some None.
Proof.
  exists ex_site, (ex_request "/livesim/testpic/V1/20.jpg" (Some "bytes=0-1,3-4")), 200%Q, [0;1;2;3;4;5;6;7;8;9].
  eexists. split; [split; [discriminate|left; vm_compute; reflexivity]|]. split; [reflexivity|].
  split; [vm_compute; reflexivity|]. repeat split.
Qed.

(** ** No history *)
Lemma C46_no_history_pf : forall limit s history r now sid,
  fst (application limit s r now sid (run limit s history [])) = fst (application limit s r now sid []).
Proof.
  intros limit s history r now sid. apply application_usual; [|left; reflexivity]. apply run_usual. left. reflexivity.
Qed.
(** The shared dictionary does change. *)
Example ex_history : let r := ex_request "/livesim/testpic/V1/20.jpg" None in
  run 100 ex_site [(r, 200%Q, "abc")] [] <> [] /\
  exists rp, fst (application 100 ex_site r 300 "def" (run 100 ex_site [(r, 200%Q, "abc")] [])) = Ok rp /\ rp_status rp = 404.
Proof. split; [vm_compute; discriminate|]. eexists. split; [vm_compute; reflexivity|]. reflexivity. Qed.

(** ** Sessions *)
Lemma C47_redirect_pf : forall limit s r now sid dflt p,
  limit <> 0 -> hr_path r = "/" ++ p -> unstarted (split_all "/" (hr_path r)) -> snd (splitext (last (split_all "/" (hr_path r)) "")) = ".mpd" ->
  exists rp path', fst (application limit s r now sid dflt) = Ok rp /\
    rp_status rp = 302 /\ rp_body rp = [[]] /\
    session_path (py_int_of_Q now) sid (hr_path r) path' /\
    header_is rp "Location" ((if hr_https r then "https" else "http") ++ "://" ++ hr_host r ++ path' ++
                             (if String.eqb (hr_query r) "" then "" else "?" ++ hr_query r)).
Proof.
  intros limit s r now sid dflt p N P U X. unfold application, url_ext, path_parts.
  destruct (Z.eqb_spec limit 0) as [|_]; [contradiction|]. rewrite (session_none _ U), X. cbn [String.eqb Ascii.eqb Bool.eqb].
  simpl_start. eexists. eexists. split; [reflexivity|]. cbn [fst rp_status rp_body]. split; [reflexivity|]. split; [reflexivity|].
  rewrite P. split; [apply inserted_path|]. unfold header_is, redirect_url, path_parts. cbn [rp_headers]. rewrite P.
  destruct (hr_https r); reflexivity.
Qed.
Lemma session_started : forall t sid p p', no_slash sid -> session_path t sid p p' -> unstarted (split_all "/" p) ->
  started (split_all "/" p') t.
Proof.
  intros t sid p p' N H U. destruct (session_split t sid p p' N H) as (first & rest & E & E'). rewrite E in U. rewrite E'.
  inversion U as [|? ? _ U1]; subst. inversion U1 as [|? ? _ U2]; subst.
  exists ["";first], ("sts_" ++ print_Z t), (("sid_" ++ sid) :: rest). split; [reflexivity|].
  split; [exists (print_Z t); split; [reflexivity|apply py_int_print]|]. constructor; [|exact U2].
  intros t' (x & K & _). discriminate K.
Qed.
(** The redirected client: never redirected again, and served during the session. *)
Lemma C47_follow_pf : forall limit s r now sid p dflt sid',
  no_slash sid -> session_path (py_int_of_Q now) sid p (hr_path r) -> unstarted (split_all "/" p) ->
  forall now', 
    (forall rp, fst (application limit s r now' sid' dflt) = Ok rp -> rp_status rp <> 302) /\
    (limit = 0 \/ (now' <= inject_Z (py_int_of_Q now + limit))%Q /\ (inject_Z (py_int_of_Q now) <= now' + 5)%Q ->
     fst (application limit s r now' sid' dflt) = fst (application 0 s r now' sid' dflt)).
Proof.
  intros limit s r now sid p dflt sid' N P U now'. pose proof (session_started _ _ _ _ N P U) as S. split.
  - intros rp H. 
    assert (C : forall rp, content_reply s r now' = Ok rp -> rp_status rp <> 302).
    { clear. intros rp. unfold content_reply. 
      assert (F : forall l h b rp, (let* (x, _) := start_reply 404 l h b in Ok x) = Ok rp -> rp_status rp <> 302)
        by (intros l h b rp0; simpl_start; intros [= <-]; discriminate).
      assert (F2 : forall l h b rp, (let* (x, _) := start_reply 200 l h b in Ok x) = Ok rp -> rp_status rp <> 302)
        by (intros l h b rp0; simpl_start; intros [= <-]; discriminate).
      assert (F3 : forall l h b rp, (let* (x, _) := start_reply 206 l h b in Ok x) = Ok rp -> rp_status rp <> 302)
        by (intros l h b rp0; simpl_start; intros [= <-]; discriminate).
      assert (W : forall pl, match pl with [] => let* (rp, _) := start_reply 404 (blen (encode_utf8 "Not found (now)")) [("Content-Type", Some "text/plain")] [encode_utf8 "Not found (now)"] in Ok rp
        | _ => whole_reply s r now' pl end = Ok rp -> rp_status rp <> 302).
      { intros [|x pl]; [apply F|]. unfold whole_reply. destruct (hr_range r) as [[|a l]|]; try apply F2.
        destruct (handle_byte_range (x :: pl) (String a l)) as [(out, rg)|e]; cbn [bind]; [|discriminate].
        destruct rg as [[|y z]|]; [apply F2|apply F3|apply F3]. }
      destruct (respond s r now') as [[b|t|ss ch|pl]|e]; [apply W|apply W|apply F2|apply F|apply F]. }
    unfold application in H. unfold path_parts in H. rewrite (session_some _ _ S) in H.
    destruct (limit =? 0); [exact (C _ H)|].
    destruct (Qltb (inject_Z _) now'); [unfold start_reply in H; cbn [status_string bind Z.eqb Pos.eqb fst] in H; injection H as <-; discriminate|].
    destruct (Qltb _ _); [unfold start_reply in H; cbn [status_string bind Z.eqb Pos.eqb fst] in H; injection H as <-; discriminate|].
    exact (C _ H).
  - intros A. rewrite !admitted_content; [reflexivity|left; reflexivity|].
    destruct A as [A|(A & B)]; [left; exact A|right]. exists (py_int_of_Q now). auto.
Qed.
(** No content outside the session. *)
Lemma C47_bounded_pf : forall limit s r now sid dflt rp, limit <> 0 ->
  fst (application limit s r now sid dflt) = Ok rp -> success rp ->
  exists t, started (split_all "/" (hr_path r)) t /\ (now <= inject_Z (t + limit))%Q /\ (inject_Z t <= now + 5)%Q.
Proof.
  intros limit s r now sid dflt rp N H S. unfold application in H.
  destruct (Z.eqb_spec limit 0) as [|_]; [contradiction|].
  pose proof (session_spec (path_parts r) None) as K. destruct (session_start (path_parts r) None) as [t|].
  - destruct K as [K|(_ & K)]; [|discriminate]. exists t. split; [exact K|].
    destruct (Qltb _ now) eqn:A; [unfold start_reply in H; cbn [status_string bind Z.eqb Pos.eqb fst] in H; injection H as <-; destruct S; discriminate|].
    destruct (Qltb (now + 5) _) eqn:B; [unfold start_reply in H; cbn [status_string bind Z.eqb Pos.eqb fst] in H; injection H as <-; destruct S; discriminate|].
    apply Qltb_false in A. apply Qltb_false in B. split; assumption.
  - exfalso. destruct (String.eqb _ _); unfold start_reply in H; cbn [status_string bind Z.eqb Pos.eqb fst] in H; injection H as <-; destruct S; discriminate.
Qed.
(** The session parts do not change what is served from files. *)
Lemma C47_same_media_pf : forall s r r' now t sid x,
  hr_host r' = hr_host r -> hr_https r' = hr_https r -> no_slash sid -> session_path t sid (hr_path r) (hr_path r') ->
  (forall c, provider_config s r now = Ok c -> c_ext c <> ".mpd" /\ c_ext c <> ".period") ->
  (forall pl, x <> RError pl) ->
  (respond s r now = Ok x <-> respond s r' now = Ok x).
Proof.
  intros s r r' now t sid x Hh Hs N P M G'.
  assert (G : given x) by (destruct x; try exact I; exact (G' _ eq_refl)). clear G'.
  destruct (session_split t sid _ _ N P) as (first & rest & E & E').
  unfold respond, provider_config in *. change (split_all "/" (hr_path r)) with (path_parts r) in E.
  change (split_all "/" (hr_path r')) with (path_parts r') in E'. rewrite E in *. rewrite E', Hh, Hs.
  set (base := _ ++ _).
  pose proof (session_config (st_vod s) base (print_Z t) sid rest (py_int_of_Q now)) as C. fold base in M.
  destruct (process_url (st_vod s) base rest (py_int_of_Q now)) as [c|e].
  - destruct C as (b & ->). cbn [bind]. change (c_ext (set_base_url b c)) with (c_ext c).
    change (c_chunkdur (set_base_url b c)) with (c_chunkdur c). destruct (M c eq_refl) as (M1 & M2).
    destruct (String.eqb (c_ext c) ".m4s"); [apply media_given; exact G|].
    destruct (String.eqb_spec (c_ext c) ".mpd"); [contradiction|]. destruct (String.eqb_spec (c_ext c) ".period"); [contradiction|].
    cbn [orb]. destruct (String.eqb (c_ext c) ".mp4"); [apply init_given; exact G|].
    destruct (String.eqb (c_ext c) ".jpg"); [apply media_given; exact G|]. reflexivity.
  - rewrite C. reflexivity.
Qed.
Lemma not_carried : forall p, starts_with "sts_" p = false -> forall t, ~ carries p t.
Proof. intros p S t (x & -> & _). rewrite starts_self in S. discriminate. Qed.
Lemma ex_unstarted : unstarted (split_all "/" "/livesim/testpic/Manifest.mpd").
Proof.
  assert (E : split_all "/" "/livesim/testpic/Manifest.mpd" = ["";"livesim";"testpic";"Manifest.mpd"]) by (vm_compute; reflexivity).
  rewrite E. unfold unstarted. repeat (apply Forall_cons; [apply not_carried; reflexivity|]). apply Forall_nil.
Qed.
Example ex_session : let r := ex_request "/livesim/testpic/Manifest.mpd" None in
  unstarted (split_all "/" (hr_path r)) /\ snd (splitext (last (split_all "/" (hr_path r)) "")) = ".mpd" /\
  session_path (py_int_of_Q (401 # 2)) "0a1b" (hr_path r) "/livesim/sts_200/sid_0a1b/testpic/Manifest.mpd" /\
  exists rp, fst (application 100 ex_site r (401 # 2) "0a1b" []) = Ok rp /\
    header "Location" (rp_headers rp) = Some (Some "http://h/livesim/sts_200/sid_0a1b/testpic/Manifest.mpd").
Proof.
  split; [exact ex_unstarted|]. split; [vm_compute; reflexivity|].
  split; [apply (se_deep 200 "0a1b" "livesim" "testpic/Manifest.mpd"); unfold in_path; cbn; intuition discriminate|].
  eexists. split; vm_compute; reflexivity.
Qed.
(** The session lasts 100 s from second 200. *)
Example ex_session_life :
  let code path now := match fst (application 100 ex_site (ex_request path None) now "x" []) with Ok rp => rp_status rp | Err _ => 0 end in
  code "/livesim/sts_200/sid_0a1b/testpic/Manifest.mpd" 300%Q = 200 /\
  code "/livesim/sts_200/sid_0a1b/testpic/Manifest.mpd" (601 # 2)%Q = 410 /\
  code "/livesim/sts_200/sid_0a1b/testpic/Manifest.mpd" 195%Q = 200 /\
  code "/livesim/sts_200/sid_0a1b/testpic/Manifest.mpd" (389 # 2)%Q = 404 /\
  code "/livesim/sts_200/sid_0a1b/testpic/V1/20.jpg" 250%Q = 200.
Proof. vm_compute. repeat split. Qed.
Example ex_same_media : let r := ex_thumb in let r' := ex_request "/livesim/sts_200/sid_0a1b/testpic/V1/20.jpg" None in
  session_path 200 "0a1b" (hr_path r) (hr_path r') /\ no_slash "0a1b" /\
  (forall c, provider_config ex_site r 250 = Ok c -> c_ext c <> ".mpd" /\ c_ext c <> ".period") /\
  respond ex_site r 250 = Ok (RBytes [0;1;2;3;4;5;6;7;8;9]).
Proof.
  split; [apply (se_deep 200 "0a1b" "livesim" "testpic/V1/20.jpg"); unfold in_path; cbn; intuition discriminate|].
  split; [unfold no_slash; cbn; intuition discriminate|]. split; [|vm_compute; reflexivity].
  intros c H. vm_compute in H. injection H as <-. split; discriminate.
Qed.

(** ** Errors *)
Lemma refusal_text : forall s r now pl, respond s r now = Ok (RError pl) ->
  exists c why, provider_config s r now = Ok c /\ pl = st_text s why c now ++ nl.
Proof.
  intros s r now pl H. unfold respond in H. apply bind_ok in H. destruct H as (c & C & H). exists c.
  assert (M : forall chunk, media_response s c chunk now = Ok (RError pl) -> exists why, pl = st_text s why c now ++ nl).
  { intros chunk K. unfold media_response in K. apply bind_ok in K. destruct K as ([why|sv] & _ & K).
    - injection K as <-. exists why. reflexivity.
    - exfalso. destruct (String.eqb (c_ext c) ".m4s"); [|apply bind_ok in K; destruct K as (b & _ & K); discriminate K].
      unfold media_content in K. destruct (c_reps c) as [|r1 [|r2 l]]; [discriminate K| |].
      + destruct chunk; apply bind_ok in K.
        * destruct K as ((t & ch) & _ & K); discriminate K.
        * destruct K as (b & _ & K); discriminate K.
      + apply bind_ok in K. destruct K as (s1 & _ & K). apply bind_ok in K. destruct K as (s2 & _ & K).
        apply bind_ok in K. destruct K as (b & _ & K); discriminate K. }
  assert (W : exists why, pl = st_text s why c now ++ nl).
  { destruct (String.eqb (c_ext c) ".m4s"); [exact (M _ H)|].
    destruct (String.eqb (c_ext c) ".mpd" || String.eqb (c_ext c) ".period")%bool;
      [apply bind_ok in H; destruct H as (t & _ & H); discriminate H|].
    destruct (String.eqb (c_ext c) ".mp4"); [|destruct (String.eqb (c_ext c) ".jpg"); [exact (M _ H)|discriminate H]].
    clear M. unfold init_response in H. apply bind_ok in H. destruct H as (ok & _ & H).
    assert (X : forall y, Ok (error_response s c now y) = Ok (RError pl) -> exists why, pl = st_text s why c now ++ nl)
      by (intros y [= <-]; exists y; reflexivity).
    destruct ok; [|exact (X _ H)]. destruct (c_reps c) as [|r1 [|r2 [|r3 l]]]; try exact (X _ H); exfalso.
    - apply bind_ok in H. destruct H as (f & _ & H). apply bind_ok in H. destruct H as (b & _ & H). discriminate H.
    - apply bind_ok in H. destruct H as (f & _ & H). apply bind_ok in H. destruct H as (g & _ & H).
      apply bind_ok in H. destruct H as (b & _ & H). discriminate H. }
  destruct W as (why & W). exists why. auto.
Qed.
(** All replies of the content part. *)
Definition outcome (limit : Z) (s : site) (r : http_request) (now : Q) (rp : reply) : Prop :=
  (success rp /\ content_of s r now (rp_body rp)) \/
  exists text, error_text limit s r now (rp_status rp) text /\ rp_body rp = [encode_utf8 text] /\
    header_is rp "Content-Type" "text/plain" /\ (rp_status rp = 404 \/ rp_status rp = 410).
Lemma slice_sub : forall a b d, exists before after, d = (before ++ py_slice a b d ++ after)%list.
Proof.
  intros a b d. unfold py_slice, bslice, btake, bdrop.
  set (i := if a <? 0 then _ else _). set (j := if b <? 0 then _ else _).
  exists (firstn (Z.to_nat i) d), (skipn (Z.to_nat (j - i)) (skipn (Z.to_nat i) d)).
  rewrite firstn_skipn, firstn_skipn. reflexivity.
Qed.
Lemma range_sub : forall payload line out rg, handle_byte_range payload line = Ok (out, rg) ->
  exists before after, payload = (before ++ out ++ after)%list.
Proof.
  intros payload line out rg H. unfold handle_byte_range in H.
  assert (W : exists before after, payload = (before ++ payload ++ after)%list)
    by (exists [], []; rewrite app_nil_r; reflexivity).
  destruct (split_all "," _) as [|iv [|x l]]; try (injection H as <- _; exact W).
  destruct (split_all "-" iv) as [|a [|b [|z l]]]; try discriminate H.
  assert (C : forall a b, (if b <? a then Ok (payload, Some "") else Ok (py_slice a (b + 1) payload,
                 Some ("bytes " ++ print_Z a ++ "-" ++ print_Z b ++ "/" ++ print_Z (blen payload)))) = Ok (out, rg) ->
    exists before after, payload = (before ++ out ++ after)%list).
  { intros i j K. destruct (j <? i); injection K as <- _; [exact W|apply slice_sub]. }
  destruct (String.eqb a "").
  - destruct (String.eqb b ""); [injection H as <- _; exact W|]. apply bind_ok in H. destruct H as (n & _ & H). exact (C _ _ H).
  - apply bind_ok in H. destruct H as (i & _ & H). apply bind_ok in H. destruct H as (j & _ & H). exact (C _ _ H).
Qed.
Lemma encode_some : forall x t, encode_utf8 (String x t) <> [].
Proof. intros x t. cbn [encode_utf8]. destruct (_ <? _); discriminate. Qed.
Lemma content_outcome : forall limit s r now rp, content_reply s r now = Ok rp -> outcome limit s r now rp.
Proof.
  intros limit s r now rp H.
  assert (F : forall text, error_text limit s r now 404 text ->
     (let* (x, _) := start_reply 404 (blen (encode_utf8 text)) [("Content-Type", Some "text/plain")] [encode_utf8 text] in Ok x) = Ok rp ->
     outcome limit s r now rp).
  { intros text T. simpl_start. intros [= <-]. right. exists text. cbn [rp_status rp_body]. split; [exact T|]. split; [reflexivity|].
    split; [|left; reflexivity]. unfold header_is. cbn [rp_headers]. rewrite headers_typed by apply blen_nonneg. reflexivity. }
  assert (W : forall payload, delivers s r now payload -> outcome limit s r now rp).
  { intros payload D. rewrite (delivers_reply _ _ _ _ D) in H. clear F. left. unfold whole_reply in H.
    assert (S2 : forall code l h out, code = 200 \/ code = 206 -> (exists before after, payload = (before ++ out ++ after)%list) ->
      (let* (x, _) := start_reply code l h [out] in Ok x) = Ok rp -> success rp /\ content_of s r now (rp_body rp)).
    { intros code l h out C P E. assert (T : success rp /\ rp_body rp = [out]).
      { destruct C as [-> | ->]; unfold start_reply in E; cbn [status_string bind Z.eqb Pos.eqb] in E; injection E as <-;
        (split; [|reflexivity]); [left|right]; reflexivity. }
      destruct T as (T & B). split; [exact T|]. left. exists payload, out. auto. }
    assert (SW : exists before after, payload = (before ++ payload ++ after)%list) by (exists [], []; rewrite app_nil_r; reflexivity).
    destruct (hr_range r) as [[|a l]|]; try (apply (S2 _ _ _ _ (or_introl eq_refl) SW H)).
    apply bind_ok in H. destruct H as ((out & rg) & R & H). pose proof (range_sub _ _ _ _ R) as SO.
    destruct rg as [[|y z]|]; [apply (S2 _ _ _ _ (or_introl eq_refl) SO H)|apply (S2 _ _ _ _ (or_intror eq_refl) SO H)|apply (S2 _ _ _ _ (or_intror eq_refl) SO H)]. }
  unfold content_reply in H. destruct (respond s r now) as [[b|t|ss ch|pl]|e] eqn:R.
  - destruct b as [|x b]; [apply (F _ (et_empty _ _ _ _ (or_introl R)) H)|]. apply (W (x :: b)). split; [discriminate|left; exact R].
  - destruct t as [|x t]; [apply (F _ (et_empty _ _ _ _ (or_intror R)) H)|].
    apply (W (encode_utf8 (String x t))). split; [apply encode_some|right; exists (String x t); split; [exact R|reflexivity]].
  - unfold start_reply in H. cbn [status_string bind Z.eqb Pos.eqb] in H. injection H as <-. left. split; [left; reflexivity|].
    right. exists ss. exact R.
  - destruct (refusal_text _ _ _ _ R) as (c & why & C & ->). 
    assert (NE : String.eqb (st_text s why c now ++ nl) "" = false) by (destruct (st_text s why c now); reflexivity).
    rewrite NE in H. exact (F _ (et_refused _ _ _ _ why c C) H).
  - exact (F _ (et_raised _ _ _ _ e R) H).
Qed.
Lemma application_outcome : forall limit s r now sid history rp,
  fst (application limit s r now sid (run limit s history [])) = Ok rp ->
  rp_status rp = 302 /\ rp_body rp = [[]] \/ outcome limit s r now rp.
Proof.
  intros limit s r now sid history rp H. rewrite C46_no_history_pf in H. unfold application in H.
  destruct (limit =? 0); [right; apply content_outcome; exact H|].
  assert (T : forall code text, code = 404 \/ code = 410 -> error_text limit s r now code text ->
    fst (match start_reply code (blen (encode_utf8 text)) [] [encode_utf8 text] with Ok (rp, h) => (Ok rp, h) | Err e => (Err e, []) end) = Ok rp ->
    outcome limit s r now rp).
  { intros code text C X K. right. exists text. 
    destruct C as [-> | ->]; unfold start_reply in K; cbn [status_string bind Z.eqb Pos.eqb fst] in K; injection K as <-; cbn [rp_status rp_body];
    (split; [exact X|]); (split; [reflexivity|]); unfold header_is; cbn [rp_headers];
    rewrite (usual_start [] _ (or_introl eq_refl)) by apply blen_nonneg; (split; [reflexivity|]); [left|right]; reflexivity. }
  destruct (session_start (path_parts r) None) as [t|].
  - right. destruct (Qltb _ now); [exact (T 410 _ (or_intror eq_refl) (et_over _ _ _ _) H)|].
    destruct (Qltb _ _); [exact (T 404 _ (or_introl eq_refl) (et_future _ _ _ _) H)|]. apply content_outcome; exact H.
  - destruct (String.eqb _ _); [|right; exact (T 404 _ (or_introl eq_refl) (et_no_start _ _ _ _) H)].
    left. unfold start_reply in H. cbn [status_string bind Z.eqb Pos.eqb fst] in H. injection H as <-. split; reflexivity.
Qed.
Lemma C60_statuses_pf : forall limit s r now sid history rp,
  fst (application limit s r now sid (run limit s history [])) = Ok rp ->
  In (rp_status rp) [200; 206; 302; 404; 410].
Proof.
  intros limit s r now sid history rp H.
  destruct (application_outcome _ _ _ _ _ _ _ H) as [(-> & _) | [([-> | ->] & _) | (text & _ & _ & _ & [-> | ->])]]; cbn; tauto.
Qed.
Lemma C60_error_text_pf : forall limit s r now sid history rp,
  fst (application limit s r now sid (run limit s history [])) = Ok rp ->
  400 <= rp_status rp ->
  exists text, error_text limit s r now (rp_status rp) text /\ rp_body rp = [encode_utf8 text] /\
    header_is rp "Content-Type" "text/plain".
Proof.
  intros limit s r now sid history rp H E.
  destruct (application_outcome _ _ _ _ _ _ _ H) as [(S & _) | [([S|S] & _) | (text & A & B & C & _)]]; try lia. exists text. auto.
Qed.
Lemma C60_success_pf : forall limit s r now sid history rp,
  fst (application limit s r now sid (run limit s history [])) = Ok rp ->
  rp_status rp = 200 \/ rp_status rp = 206 -> content_of s r now (rp_body rp).
Proof.
  intros limit s r now sid history rp H S.
  destruct (application_outcome _ _ _ _ _ _ _ H) as [(E & _) | [(_ & C) | (text & _ & _ & _ & E)]]; try exact C; exfalso; lia.
Qed.
Lemma C60_delivered_pf : forall limit s r now sid history,
  admitted limit r now ->
  (forall payload rp, delivers s r now payload ->
     fst (application limit s r now sid (run limit s history [])) = Ok rp -> rp_status rp = 200 \/ rp_status rp = 206) /\
  (forall payload, delivers s r now payload -> hr_range r = None ->
     exists rp, fst (application limit s r now sid (run limit s history [])) = Ok rp /\
       rp_status rp = 200 /\ rp_body rp = [payload] /\ header_is rp "Content-Length" (print_Z (blen payload))) /\
  (forall t chunks, respond s r now = Ok (RChunked t chunks) ->
     exists rp, fst (application limit s r now sid (run limit s history [])) = Ok rp /\
       rp_status rp = 200 /\ rp_body rp = chunks).
Proof.
  intros limit s r now sid history A. split; [|split].
  - intros payload rp D H. destruct (application_outcome _ _ _ _ _ _ _ H) as [(E & _) | [(S & _) | (text & X & _)]].
    + exfalso. rewrite (admitted_content _ _ _ _ _ _ A) in H. apply (content_outcome limit) in H.
      destruct H as [([S|S] & _) | (_ & _ & _ & _ & [S|S])]; rewrite S in E; discriminate E.
    + exact S.
    + exfalso. rewrite (admitted_content _ _ _ _ _ _ A) in H. cbn [fst] in H. rewrite (delivers_reply _ _ _ _ D) in H.
      assert (K : rp_status rp = 200 \/ rp_status rp = 206).
      { unfold whole_reply in H.
        assert (C : forall code l h b, code = 200 \/ code = 206 -> (let* (x, _) := start_reply code l h b in Ok x) = Ok rp -> rp_status rp = 200 \/ rp_status rp = 206).
        { intros code l h b [-> | ->] K; unfold start_reply in K; cbn [status_string bind Z.eqb Pos.eqb] in K; injection K as <-; [left|right]; reflexivity. }
        destruct (hr_range r) as [[|a l]|]; try (eapply C; [|exact H]; auto).
        apply bind_ok in H. destruct H as ((out & rg) & _ & H). destruct rg as [[|y z]|]; (eapply C; [|exact H]; auto). }
      inversion X; lia.
  - intros payload D R. rewrite (admitted_content _ _ _ _ _ _ A). cbn [fst]. rewrite (delivers_reply _ _ _ _ D).
    unfold whole_reply. rewrite R. simpl_start. eexists. split; [reflexivity|]. split; [reflexivity|]. split; [reflexivity|].
    unfold header_is. cbn [rp_headers]. rewrite headers_typed by apply blen_nonneg. reflexivity.
  - intros t chunks R. rewrite (admitted_content _ _ _ _ _ _ A). cbn [fst]. unfold content_reply. rewrite R. simpl_start.
    eexists. split; [reflexivity|]. split; reflexivity.
Qed.
(** A segment of the future, a file that is not there, and the thumbnail. *)
Example ex_errors :
  let get path := match fst (application 0 ex_site (ex_request path None) 200 "" []) with Ok rp => (rp_status rp, rp_body rp) | Err _ => (0, []) end in
  get "/livesim/testpic/V1/2000.m4s" = (404, [encode_utf8 ("refused 2000.m4s" ++ nl)]) /\
  get "/livesim/testpic/V1/20.m4s" = (404, [encode_utf8 ("DASH Proxy Error: FileNotFoundError" ++ nl ++ " URL=ParseResult /livesim/testpic/V1/20.m4s")]) /\
  get "/livesim/testpic/V1/20.jpg" = (200, [[0;1;2;3;4;5;6;7;8;9]]).
Proof. vm_compute. repeat split. Qed.
