(** Property theorems; proofs in XlinkTheory.v, where the examples that meet the
    hypotheses stand beside each lemma. Generated by tools/gen_props.py. *)
From Coq Require Import ZifyBool ZifyNat Znumtheory.
From Verif Require Import Base BaseProofs ConfigModel StrModel PeriodModel PeriodTheory MpdModel MpdTheory XlinkModel XlinkSpec XlinkProofs XlinkProofs2
  XlinkProofs3 XlinkProofs4 XlinkProofs5 XlinkProofs6 XlinkProofs7 XlinkProofs8.
From Verif Require Import XlinkTheory.
Local Open Scope string_scope.
Open Scope Z_scope.

(** ** C59: exactly the selected periods are replaced.  The full statement is
    about all manifests.  Here the manifest is as the writer of the live
    manifest expects it: the id is the first attribute of a Period and is not
    mentioned before it in the document, and there is one BaseURL, without
    attributes (C59_mentioned_refuted, C59_base_refuted and C59_two_bases_refuted show that
    these are needed).  With ads the periods that stay are not delivered
    unchanged: an AssetIdentifier is put in (C59_ads_refuted). *)
Theorem C59_replaced_partial : forall c e source now x base,
  let n := Z.min (c_pph c) 60 in let m := Z.min (c_xlink c) 60 in let ad := c_insert_ad c in
  get_mpd c e source now = Ok x -> c_ext c = ".mpd" -> 0 < c_xlink c -> 0 < c_pph c ->
  manifest_ready x ->
  (forall y k, In y (x_kids x) -> period_nr y k -> lacks (escape false base ++ c_filename c) ("p" ++ print_Z k)) ->
  (1 <= ad <= 5 \/ one_base x base) ->
  (m | n)
  /\ exists outs, get_mpd_text c e source now = Ok (manifest_text x outs)
  /\ List.length outs = List.length (x_kids x)
  /\ forall i y o, nth_error (x_kids x) i = Some y -> nth_error outs i = Some o ->
     (child_linked ad (n / m) (x_kids x) i -> forall k, period_nr y k -> o = link_text ad (escape false base) (c_filename c) k y)
     /\ (~ child_linked ad (n / m) (x_kids x) i -> o = if (x_tag y =? "Period")%string && (0 <? ad) then asset_text y else write_xml y).
Proof. exact C59_replaced_partial_pf. Qed.
Print Assumptions C59_replaced_partial.

(** A request for the link of a period returns the period, with the namespace
    of the manifest declared on it.  The request differs from that for the
    manifest only in the last part of its URL; [u] is the new URL. *)
Theorem C59_resolve_partial : forall c e source now x y k u,
  get_mpd c e source now = Ok x -> 0 < c_xlink c -> c_add_loc c = false -> manifest_ready x -> lacks (c_filename c) "+" ->
  In y (x_kids x) -> period_nr y k ->
  get_mpd_text (set_ext ".period" (set_filename (c_filename c ++ "+p" ++ print_Z k ++ ".period") c))
      (mk_menv u (me_head_url e) (me_wall e) (me_tables e)) source now
  = Ok (write_xml (Elem "Period" (x_attrs y ++ [("xmlns", "urn:mpeg:dash:schema:mpd:2011")]) (x_text y) (x_kids y))).
Proof. exact C59_resolve_partial_pf. Qed.
(* examples meeting the hypotheses: ex_C59_replaced, ex_C59_replaced_ads, ex_C59_resolve *)
Print Assumptions C59_resolve_partial.

(** The period is looked up by its id anywhere in the text: p4 is found in the
    mp4 of an earlier mimeType.  The text from there to the end of period p3 is
    replaced; the selected period p4 stays and p3, which is not selected, is cut. *)
Theorem C59_mentioned_refuted : exists c e source now x y4 y3 t,
  get_mpd c e source now = Ok x /\ c_ext c = ".mpd" /\ c_xlink c = 30 /\ c_pph c = 60 /\ c_insert_ad c = -1
  /\ In y3 (x_kids x) /\ In y4 (x_kids x) /\ period_nr y3 3 /\ period_nr y4 4 /\ child_chosen 2 y4 /\ ~ child_chosen 2 y3
  /\ get_mpd_text c e source now = Ok t /\ occurs (write_xml y4) t /\ lacks t (write_xml y3).
Proof. exact C59_mentioned_refuted_pf. Qed.
Print Assumptions C59_mentioned_refuted.

(** With ads the periods that are not links are changed too. *)
Theorem C59_ads_refuted : exists c e source now x y t,
  get_mpd c e source now = Ok x /\ c_ext c = ".mpd" /\ c_xlink c = 30 /\ c_pph c = 60 /\ c_insert_ad c = 1 /\ manifest_ready x
  /\ In y (x_kids x) /\ period_nr y 9999 /\ ~ child_chosen 2 y
  /\ get_mpd_text c e source now = Ok t /\ lacks t (write_xml y).
Proof. exact C59_ads_refuted_pf. Qed.
Print Assumptions C59_ads_refuted.

(** A BaseURL with attributes (here an availability time offset) is not found. *)
Theorem C59_base_refuted : exists c e source now x,
  get_mpd c e source now = Ok x /\ c_ext c = ".mpd" /\ c_xlink c = 30 /\ c_pph c = 60 /\ c_insert_ad c = -1 /\ manifest_ready x
  /\ get_mpd_text c e source now = Err "IndexError".
Proof. exact C59_base_refuted_pf. Qed.
Print Assumptions C59_base_refuted.

(** With two BaseURL elements the link contains what is between them. *)
Theorem C59_two_bases_refuted : exists c e source now x t,
  get_mpd c e source now = Ok x /\ c_ext c = ".mpd" /\ c_xlink c = 30 /\ c_pph c = 60 /\ c_insert_ad c = -1 /\ manifest_ready x
  /\ get_mpd_text c e source now = Ok t
  /\ occurs "<Period xlink:href=""http://h/livesim/periods_60/xlink_30/tsbd_30///testpic/baseurl_u10_d20//</BaseURL><BaseURL>" t.
Proof. exact C59_two_bases_refuted_pf. Qed.
Print Assumptions C59_two_bases_refuted.

(** No periods and a link per period: the step is 0. *)
Theorem C59_no_periods_refuted : exists c e source now x,
  get_mpd c e source now = Ok x /\ c_ext c = ".mpd" /\ c_xlink c = 30 /\ c_pph c = 0
  /\ get_mpd_text c e source now = Err "ZeroDivisionError".
Proof. exact C59_no_periods_refuted_pf. Qed.
Print Assumptions C59_no_periods_refuted.
