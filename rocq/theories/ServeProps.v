(** Property theorems; proofs in ServeTheory.v, where the examples that meet the
    hypotheses stand beside each lemma. Generated by tools/gen_props.py. *)
From Coq Require Import Lqa.
From Verif Require Import Base BaseProofs BytesModel BytesProofs StrModel BoxSpec ConfigModel ConfigProofs
  ProxyModel ProxySpec ProxyProofs ProxyTheory TimeModel TimeProofs EmsgModel EmsgSpec EmsgTheory
  MediaModel MediaSpec MediaProofs MediaProofs2 MediaTheory SegmentModel HttpModel HttpSpec HttpTheory Mpd2Spec
  EndSpec EndTheory ServeSpec ServeProofs.
From Verif Require Import ServeTheory.
Local Open Scope string_scope.
Open Scope Z_scope.

(** The reply is the segment exactly inside its window, whatever was requested
    before; outside it is a 404. *)
Theorem C68_window : forall limit s r now sid history c rep n l,
  admitted limit r now -> hr_range r = None -> site_ok s ->
  provider_config s r now = Ok c -> media_request c n -> not_chunked c ->
  c_reps c = [rep] -> rep_type rep <> "subtitles" -> c_insert_sidx c = false ->
  0 <= n < 4294967296 -> announceable c rep n ->
  st_files s (c_content_name c) (c_rel_path c) (source_file c n) ".m4s" = Ok (encs l) ->
  sendable (shift c n * rep_timescale rep) l ->
  exists rp, fst (application limit s r now sid (run limit s history [])) = Ok rp /\
    (ProxySpec.session_started c now /\ session_not_over c now /\ available c n now -> rp_status rp = 200) /\
    (~ (ProxySpec.session_started c now /\ session_not_over c now /\ available c n now) -> rp_status rp = 404).
Proof. exact C68_window_pf. Qed.
Print Assumptions C68_window.

(** Without options: segment [n] of well-formed content is delivered exactly
    from (n+1)d to (n+2)d plus the time-shift depth. *)
Theorem C68_default_url : forall limit s r now sid history first name rp ct m v n l,
  admitted limit r now -> hr_range r = None -> site_ok s ->
  hr_path r = "/" ++ first ++ "/" ++ name ++ "/" ++ rp ++ "/" ++ print_Z n ++ ".m4s" ->
  no_slash first -> no_slash name -> no_slash rp -> plain_name name -> split_dunder rp = [rp] ->
  st_vod s name = Ok v -> content_type_for_rep (v_media v) rp = Some (ct, m) -> ct <> "subtitles" -> 0 <= n < 4294967296 ->
  let d := v_dur v in let N := v_n v in
  st_files s name rp (v_first v + n mod N) ".m4s" = Ok (encs l) -> sendable (n / N * (N * d) * m_timescale m) l ->
  exists reply, fst (application limit s r now sid (run limit s history [])) = Ok reply /\
    ((inject_Z ((n + 1) * d) <= now <= inject_Z ((n + 2) * d + v_tsbd v))%Q -> rp_status reply = 200) /\
    (~ (inject_Z ((n + 1) * d) <= now <= inject_Z ((n + 2) * d + v_tsbd v))%Q -> rp_status reply = 404).
Proof. exact C68_default_url_pf. Qed.
(* examples meeting the hypotheses: C68_default_case, C68_window_case *)
Print Assumptions C68_default_url.
