(** Property theorems; proofs in HeadTheory.v, where the examples that meet the
    hypotheses stand beside each lemma. Generated by tools/gen_props.py. *)
From Verif Require Import Base BaseProofs BytesModel BytesProofs BoxSpec Mp4Proofs HeadModel HeadSpec HeadProofs.
From Verif Require Import HeadTheory.
Open Scope Z_scope.

(** A protection header: system, key ids and size of the data, wherever the box
    stands in the file. *)
Theorem C86_pssh_partial : forall pre post v flags system kids d, pssh_proper v flags system kids d ->
  pssh_at (pre ++ plain_box (bstr "pssh") (pssh_content v flags system kids d) ++ post) (blen pre) = Ok (mk_pssh system kids (blen d)).
Proof. exact C86_pssh_partial_pf. Qed.
(* examples meeting the hypotheses: C86_pssh_partial_case *)
Print Assumptions C86_pssh_partial.

(** A decoder record: every field and every parameter set. *)
Theorem C86_hevc_partial : forall pre post h, hvcc_proper h ->
  let b := plain_box (bstr "hvcC") (hvcc_content h) in hvcc_at (pre ++ b ++ post) (blen pre) (blen b) = Ok h.
Proof. exact C86_hevc_partial_pf. Qed.
(* examples meeting the hypotheses: C86_hevc_partial_case *)
Print Assumptions C86_hevc_partial.

(** Media adjustments: number, durations, signed times and rates. *)
Theorem C86_adjustments_partial : forall pre post v flags l, fits 8 v -> fits 24 flags ->
  Z.of_nat (List.length l) < 4294967296 -> Forall (edit_proper v) l ->
  let b := plain_box (bstr "tfma") (edits_content v flags l) in
  tfma_at (pre ++ b ++ post) (blen pre) (blen b) = Ok (Z.of_nat (List.length l), l).
Proof. exact C86_adjustments_partial_pf. Qed.
(* examples meeting the hypotheses: C86_adjustments_partial_case *)
Print Assumptions C86_adjustments_partial.

(** The data of the system in version 0: it starts at the position the reader
    keeps for the children of the box. *)
Theorem C86_data_position_partial : forall pre post flags system d, pssh_proper 0 flags system [] d ->
  bslice (pssh_childpos (blen pre)) (pssh_childpos (blen pre) + blen d)
    (pre ++ plain_box (bstr "pssh") (pssh_content 0 flags system [] d) ++ post) = d.
Proof. exact C86_data_position_partial_pf. Qed.
(* examples meeting the hypotheses: C86_data_position_partial_case *)
Print Assumptions C86_data_position_partial.

(** With key ids it does not: the position is 32 bytes into the box also when the
    list of key ids stands there. *)
Theorem C86_data_position_refuted : exists pre post v flags system kids d, pssh_proper v flags system kids d /\
  let file := (pre ++ plain_box (bstr "pssh") (pssh_content v flags system kids d) ++ post)%list in
  bslice (blen pre + pssh_data_at v kids) (blen pre + pssh_data_at v kids + blen d) file = d /\
  bslice (pssh_childpos (blen pre)) (pssh_childpos (blen pre) + blen d) file <> d /\
  pssh_childpos (blen pre) <> blen pre + pssh_data_at v kids.
Proof. exact C86_data_position_refuted_pf. Qed.
Print Assumptions C86_data_position_refuted.
