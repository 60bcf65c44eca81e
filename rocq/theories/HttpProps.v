(** Property theorems; proofs in HttpTheory.v, where the examples that meet the
    hypotheses stand beside each lemma. Generated by tools/gen_props.py. *)
From Coq Require Import ZifyBool ZifyNat.
From Verif Require Import Base BaseProofs BytesModel BytesProofs StrModel ConfigModel ConfigProofs ProxyModel HttpModel HttpSpec
  HttpProofs Mpd2Spec Mpd2Proofs OptionsProofs OptionsTheory ProxyTheory.
From Verif Require Import HttpTheory.
Local Open Scope string_scope.
Open Scope Z_scope.

Theorem C45_range_partial : forall limit s r now sid dflt payload unit text rg,
  admitted limit r now -> delivers s r now payload ->
  hr_range r = Some (unit ++ "=" ++ text) -> spells rg text ->
  (forall n, rg = LastBytes n -> n <= blen payload) ->
  exists rp, fst (application limit s r now sid dflt) = Ok rp /\ range_reply payload rg rp.
Proof. exact C45_range_partial_pf. Qed.
(* examples meeting the hypotheses: ex_range *)
Print Assumptions C45_range_partial.

Theorem C45_no_bounds_partial : forall limit s r now sid dflt payload unit,
  admitted limit r now -> delivers s r now payload -> hr_range r = Some (unit ++ "=-") ->
  exists rp, fst (application limit s r now sid dflt) = Ok rp /\
    rp_status rp = 200 /\ rp_body rp = [payload] /\ no_header rp "Content-Range".
Proof. exact C45_no_bounds_partial_pf. Qed.
(* examples meeting the hypotheses: ex_no_bounds *)
Print Assumptions C45_no_bounds_partial.

(** More last bytes than there are: not all bytes, and no true positions. *)
Theorem C45_long_suffix_refuted : exists s r now payload text n rp,
  delivers s r now payload /\ hr_range r = Some ("bytes=" ++ text) /\ spells (LastBytes n) text /\
  fst (application 0 s r now "" []) = Ok rp /\ ~ range_reply payload (LastBytes n) rp /\
  rp_body rp = [[8; 9]] /\ header_is rp "Content-Range" "bytes -2-9/10".
Proof. exact C45_long_suffix_refuted_pf. Qed.
Print Assumptions C45_long_suffix_refuted.

(** A malformed range is an exception outside the handler: no reply at all. *)
Theorem C45_malformed_refuted : exists s r now payload,
  delivers s r now payload /\ hr_range r = Some "bytes=abc" /\
  fst (application 0 s r now "" []) = Err "ValueError".
Proof. exact C45_malformed_refuted_pf. Qed.
Print Assumptions C45_malformed_refuted.

(** Several ranges: the whole payload as partial content, with None as the value
    of Content-Range. *)
Theorem C45_several_refuted : exists s r now payload rp,
  delivers s r now payload /\ hr_range r = Some "bytes=0-1,3-4" /\
  fst (application 0 s r now "" []) = Ok rp /\ rp_status rp = 206 /\ rp_body rp = [payload] /\
  header "Content-Range" (rp_headers rp) = Some None.
Proof. exact C45_several_refuted_pf. Qed.
Print Assumptions C45_several_refuted.

(** ** No history *)
Theorem C46_no_history : forall limit s history r now sid,
  fst (application limit s r now sid (run limit s history [])) = fst (application limit s r now sid []).
Proof. exact C46_no_history_pf. Qed.
(* examples meeting the hypotheses: ex_history *)
Print Assumptions C46_no_history.

(** ** Sessions *)
Theorem C47_redirect : forall limit s r now sid dflt p,
  limit <> 0 -> hr_path r = "/" ++ p -> unstarted (split_all "/" (hr_path r)) -> snd (splitext (last (split_all "/" (hr_path r)) "")) = ".mpd" ->
  exists rp path', fst (application limit s r now sid dflt) = Ok rp /\
    rp_status rp = 302 /\ rp_body rp = [[]] /\
    session_path (py_int_of_Q now) sid (hr_path r) path' /\
    header_is rp "Location" ((if hr_https r then "https" else "http") ++ "://" ++ hr_host r ++ path' ++
                             (if String.eqb (hr_query r) "" then "" else "?" ++ hr_query r)).
Proof. exact C47_redirect_pf. Qed.
Print Assumptions C47_redirect.

(** The redirected client: never redirected again, and served during the session. *)
Theorem C47_follow : forall limit s r now sid p dflt sid',
  no_slash sid -> session_path (py_int_of_Q now) sid p (hr_path r) -> unstarted (split_all "/" p) ->
  forall now', 
    (forall rp, fst (application limit s r now' sid' dflt) = Ok rp -> rp_status rp <> 302) /\
    (limit = 0 \/ (now' <= inject_Z (py_int_of_Q now + limit))%Q /\ (inject_Z (py_int_of_Q now) <= now' + 5)%Q ->
     fst (application limit s r now' sid' dflt) = fst (application 0 s r now' sid' dflt)).
Proof. exact C47_follow_pf. Qed.
Print Assumptions C47_follow.

(** No content outside the session. *)
Theorem C47_bounded : forall limit s r now sid dflt rp, limit <> 0 ->
  fst (application limit s r now sid dflt) = Ok rp -> success rp ->
  exists t, started (split_all "/" (hr_path r)) t /\ (now <= inject_Z (t + limit))%Q /\ (inject_Z t <= now + 5)%Q.
Proof. exact C47_bounded_pf. Qed.
Print Assumptions C47_bounded.

(** The session parts do not change what is served from files. *)
Theorem C47_same_media : forall s r r' now t sid x,
  hr_host r' = hr_host r -> hr_https r' = hr_https r -> no_slash sid -> session_path t sid (hr_path r) (hr_path r') ->
  (forall c, provider_config s r now = Ok c -> c_ext c <> ".mpd" /\ c_ext c <> ".period") ->
  (forall pl, x <> RError pl) ->
  (respond s r now = Ok x <-> respond s r' now = Ok x).
Proof. exact C47_same_media_pf. Qed.
(* examples meeting the hypotheses: ex_session, ex_session_life, ex_same_media *)
Print Assumptions C47_same_media.

Theorem C60_statuses : forall limit s r now sid history rp,
  fst (application limit s r now sid (run limit s history [])) = Ok rp ->
  In (rp_status rp) [200; 206; 302; 404; 410].
Proof. exact C60_statuses_pf. Qed.
Print Assumptions C60_statuses.

Theorem C60_error_text : forall limit s r now sid history rp,
  fst (application limit s r now sid (run limit s history [])) = Ok rp ->
  400 <= rp_status rp ->
  exists text, error_text limit s r now (rp_status rp) text /\ rp_body rp = [encode_utf8 text] /\
    header_is rp "Content-Type" "text/plain".
Proof. exact C60_error_text_pf. Qed.
Print Assumptions C60_error_text.

Theorem C60_success : forall limit s r now sid history rp,
  fst (application limit s r now sid (run limit s history [])) = Ok rp ->
  rp_status rp = 200 \/ rp_status rp = 206 -> content_of s r now (rp_body rp).
Proof. exact C60_success_pf. Qed.
Print Assumptions C60_success.

Theorem C60_delivered : forall limit s r now sid history,
  admitted limit r now ->
  (forall payload rp, delivers s r now payload ->
     fst (application limit s r now sid (run limit s history [])) = Ok rp -> rp_status rp = 200 \/ rp_status rp = 206) /\
  (forall payload, delivers s r now payload -> hr_range r = None ->
     exists rp, fst (application limit s r now sid (run limit s history [])) = Ok rp /\
       rp_status rp = 200 /\ rp_body rp = [payload] /\ header_is rp "Content-Length" (print_Z (blen payload))) /\
  (forall t chunks, respond s r now = Ok (RChunked t chunks) ->
     exists rp, fst (application limit s r now sid (run limit s history [])) = Ok rp /\
       rp_status rp = 200 /\ rp_body rp = chunks).
Proof. exact C60_delivered_pf. Qed.
(* examples meeting the hypotheses: ex_errors *)
Print Assumptions C60_delivered.
