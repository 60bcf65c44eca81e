(** Property theorems; proofs in OptionsTheory.v, where the examples that meet the
    hypotheses stand beside each lemma. Generated by tools/gen_props.py. *)
From Coq Require Import Lqa ZifyBool ZifyNat.
From Verif Require Import Base BaseProofs ConfigModel ProxyModel ProxySpec ProxyProofs ProxyTheory ConfigProofs ConfigTheory OptionsProofs.
From Verif Require Import OptionsTheory.
Open Scope Z_scope.

Theorem C48_order_config : forall read base name rp file l1 l2 now c,
  known l1 -> plain_name name -> reordered l1 l2 ->
  process_url read base (media_parts l1 name rp file) now = Ok c ->
  exists b, process_url read base (media_parts l2 name rp file) now = Ok (set_base_url b c).
Proof. exact C48_order_config_pf. Qed.
Print Assumptions C48_order_config.

Theorem C48_order_request : forall read base name rp file l1 l2 now r,
  known l1 -> plain_name name -> reordered l1 l2 ->
  (request read base (media_parts l1 name rp file) now = Ok r <->
   request read base (media_parts l2 name rp file) now = Ok r).
Proof. exact C48_order_request_pf. Qed.
(* examples meeting the hypotheses: ex_reordered *)
Print Assumptions C48_order_request.

(** The last of several equal scalar options wins: an earlier one (with a readable value)
    can be left out. *)
Theorem C48_last_wins_partial : forall read base name rp file l1 l2 l3 k v1 v2 now c,
  known (l1 ++ (k, v1) :: l2 ++ (k, v2) :: l3) -> plain_name name ->
  str_in k scalar_keys = true ->
  (forall x, In x l2 -> slot (fst x) <> slot k) ->
  process_url read base (media_parts (l1 ++ (k, v1) :: l2 ++ (k, v2) :: l3) name rp file) now = Ok c ->
  exists b, process_url read base (media_parts (l1 ++ l2 ++ (k, v2) :: l3) name rp file) now
              = Ok (set_base_url b c).
Proof. exact C48_last_wins_partial_pf. Qed.
(* examples meeting the hypotheses: ex_last_wins *)
Print Assumptions C48_last_wins_partial.

(** Finding: on/off options cannot be switched off again. *)
Theorem C48_flag_last_wins_refuted : exists c,
  ex_cfg ["segtimeline_1"; "segtimeline_0"; "testpic"; "V1"; "1.m4s"]%string 1000 = Ok c /\
  c_segtl c = true.
Proof. exact C48_flag_last_wins_refuted_pf. Qed.
Print Assumptions C48_flag_last_wins_refuted.

(** Nothing after the first part that is not an option is interpreted as one: whatever
    follows, the option state is that of the leading options. *)
Theorem C48_stops_at_name : forall now opts name rest base,
  known opts -> plain_name name ->
  url_loop now (map opt_text opts ++ name :: rest) (ustate_init base) 0 =
  let* (u, pos) := url_loop now (map opt_text opts ++ [name]) (ustate_init base) 0 in Ok (u, pos).
Proof. exact C48_stops_at_name_pf. Qed.
(* examples meeting the hypotheses: ex_stops *)
Print Assumptions C48_stops_at_name.

Theorem C48_bad_number_rejected : forall read base name rp file l1 l2 k v e now,
  known (l1 ++ (k, v) :: l2) -> plain_name name -> str_in k int_keys = true -> py_int v = Err e ->
  exists e', process_url read base (media_parts (l1 ++ (k, v) :: l2) name rp file) now = Err e'.
Proof. exact C48_bad_number_rejected_pf. Qed.
(* examples meeting the hypotheses: ex_bad_number *)
Print Assumptions C48_bad_number_rejected.

(** Keys that are not options end the option list, so an unknown option is taken for the
    content name (and its configuration will not be found). *)
Theorem C48_unknown_key_is_name : forall read base parts part now,
  (match split_first "_" part with None => True | Some (k, _) => str_in k url_cfg_keys = false end) ->
  str_in part url_cfg_keys = false ->
  forall c, process_url read base (part :: parts) now = Ok c ->
  exists v, read part = Ok v /\ c_media_data c = v_media v.
Proof. exact C48_unknown_key_is_name_pf. Qed.
(* examples meeting the hypotheses: ex_unknown *)
Print Assumptions C48_unknown_key_is_name.
