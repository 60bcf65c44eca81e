(** Property theorems; proofs in CacheTheory.v, where the examples that meet the
    hypotheses stand beside each lemma. Generated by tools/gen_props.py. *)
From Coq Require Import ZifyBool ZifyNat.
From Verif Require Import Base BaseProofs BytesModel BytesProofs StrModel BoxSpec ConfigModel ConfigProofs
  ProxyModel ProxySpec ProxyTheory MediaTheory HttpModel HttpSpec HttpProofs HttpTheory EndSpec EndTheory CacheSpec CacheProofs.
From Verif Require Import CacheTheory.
Local Open Scope string_scope.
Open Scope Z_scope.

Theorem C74_same_reply_partial : forall limit s r now1 now2 sid1 sid2 history1 history2 c rp1 rp2,
  site_ok s -> Forall fixed_part (path_parts r) ->
  provider_config s r now1 = Ok c -> media_ext c -> quiet c (py_int_of_Q now1) -> quiet c (py_int_of_Q now2) ->
  fst (application limit s r now1 sid1 (run limit s history1 [])) = Ok rp1 -> delivered rp1 ->
  fst (application limit s r now2 sid2 (run limit s history2 [])) = Ok rp2 -> delivered rp2 ->
  rp1 = rp2.
Proof. exact C74_same_reply_partial_pf. Qed.
(* examples meeting the hypotheses: C74_same_reply_case *)
Print Assumptions C74_same_reply_partial.

(** baseurl_u20_d10: in second 200, the last one before the server goes down,
    segment 31 has an event box that it did not have in second 199. *)
Theorem C74_going_down_refuted : exists s r now1 now2 c rp1 rp2,
  site_ok s /\ Forall fixed_part (path_parts r) /\ provider_config s r now1 = Ok c /\ media_ext c /\
  fst (application 0 s r now1 "" []) = Ok rp1 /\ delivered rp1 /\
  fst (application 0 s r now2 "" []) = Ok rp2 /\ delivered rp2 /\
  quiet c (py_int_of_Q now1) /\ rp_body rp1 <> rp_body rp2.
Proof. exact C74_going_down_refuted_pf. Qed.
Print Assumptions C74_going_down_refuted.
