(** Property theorems; proofs in PeriodTheory.v, where the examples that meet the
    hypotheses stand beside each lemma. Generated by tools/gen_props.py. *)
From Coq Require Import Lqa ZifyBool ZifyNat Znumtheory.
From Verif Require Import Base BaseProofs ConfigModel ProxyModel ProxySpec ProxyProofs ProxyTheory Proxy2Theory
  ConfigProofs ConfigTheory SessionProofs PeriodModel PeriodSpec PeriodProofs.
From Verif Require Import PeriodTheory.
Open Scope Z_scope.

Theorem C23_tiling_partial : forall c sn pto now n pd b mup l,
  multi c n pd -> c_tsbd c = Some b -> 0 <= b -> 0 < c_seg_dur c -> c_ast c = 0 ->
  generate_period_data c sn pto now = Ok (mup, l) ->
  exists p0 rest, l = p0 :: rest /\
  (* consecutive: each starts where the one before it ends *)
  (forall i p q, nth_error l i = Some p -> nth_error l (S i) = Some q -> pd_start_s q = pd_start_s p + pd) /\
  (* the attribute written is that start *)
  (forall p, In p l -> pd_start p = ("PT" ++ print_Z (pd_start_s p) ++ "S")%string) /\
  (* the first one holds now - tsbd - d, the last one now + half a period *)
  c_ast c + pd_start_s p0 <= now - b - c_seg_dur c < c_ast c + pd_start_s p0 + pd /\
  c_ast c + pd_start_s (last l p0) <= now + pd / 2 < c_ast c + pd_start_s (last l p0) + pd /\
  NoDup (map pd_id l) /\
  (* nominal duration unless terminated early *)
  (forall i p, nth_error l i = Some p -> (S i < List.length l)%nat ->
     pd_period_duration_s p = Some pd \/ exists e, pd_etp p = Some e /\ pd_period_duration_s p = Some e).
Proof. exact C23_tiling_partial_pf. Qed.
(* examples meeting the hypotheses: ex_tiling *)
Print Assumptions C23_tiling_partial.

(** With a start time the period starts, which are relative to the availability
    start time, are still computed from the epoch: every announced period lies
    in the future. *)
Theorem C23_start_time_refuted : exists c n pd b mup l now,
  multi c n pd /\ c_tsbd c = Some b /\ 0 <= b /\ 0 < c_seg_dur c /\ c_ast c <= now - b - c_seg_dur c /\
  generate_period_data c 0 0 now = Ok (mup, l) /\ l <> [] /\ forall p, In p l -> now < c_ast c + pd_start_s p.
Proof. exact C23_start_time_refuted_pf. Qed.
Print Assumptions C23_start_time_refuted.

(** ** C24: start numbers. *)
Theorem C24_aligned_partial : forall c sn pto now n pd b mup l,
  multi c n pd -> c_tsbd c = Some b -> 0 < c_seg_dur c -> (c_seg_dur c | pd) ->
  c_ast c = 0 -> c_start_nr c = 0 -> whole_offset c ->
  generate_period_data c sn pto now = Ok (mup, l) ->
  (forall p, In p l -> exists k, pd_start_number p = print_Z k /\
     media_start c k = pd_start_s p /\ pd_pto p = PInt (pd_start_s p) /\
     seg_end c k = c_ast c + pd_start_s p + c_seg_dur c + offset_s c) /\
  (forall i p q k k', nth_error l i = Some p -> nth_error l (S i) = Some q ->
     pd_start_number p = print_Z k -> pd_start_number q = print_Z k' -> (k' - k) * c_seg_dur c = pd).
Proof. exact C24_aligned_partial_pf. Qed.
(* examples meeting the hypotheses: ex_aligned *)
Print Assumptions C24_aligned_partial.

(** Without the divisibility: the segment that holds the period start. *)
Theorem C24_containing_partial : forall c sn pto now n pd b mup l p,
  multi c n pd -> c_tsbd c = Some b -> 0 < c_seg_dur c ->
  c_ast c = 0 -> c_start_nr c = 0 -> whole_offset c ->
  generate_period_data c sn pto now = Ok (mup, l) -> In p l ->
  exists k, pd_start_number p = print_Z k /\
    media_start c k <= pd_start_s p < media_start c (k + 1) /\ pd_pto p = PInt (pd_start_s p).
Proof. exact C24_containing_partial_pf. Qed.
(* examples meeting the hypotheses: ex_offset_periods *)
Print Assumptions C24_containing_partial.

(** With a time offset that is no multiple of the segment duration the segment
    announced starts after the Period start (configprocessor.py 230-236 rounds). *)
Theorem C24_time_offset_refuted : exists c now mup l p k,
  multi c 60 60 /\ (c_seg_dur c | 60) /\ c_ast c = 0 /\ c_start_nr c = 0 /\
  generate_period_data c (c_start_nr c) 0 now = Ok (mup, l) /\ In p l /\
  pd_start_number p = print_Z k /\ pd_start_s p < media_start c k.
Proof. exact C24_time_offset_refuted_pf. Qed.
Print Assumptions C24_time_offset_refuted.

(** A start number option is ignored by the periods, so the announced number
    denotes other media than the period start. *)
Theorem C24_start_number_refuted : exists c now mup l p k,
  multi c 60 60 /\ (c_seg_dur c | 60) /\ c_ast c = 0 /\ c_timeoffset c = None /\
  generate_period_data c (c_start_nr c) 0 now = Ok (mup, l) /\ In p l /\
  pd_start_number p = print_Z k /\ media_start c k <> pd_start_s p.
Proof. exact C24_start_number_refuted_pf. Qed.
Print Assumptions C24_start_number_refuted.

Theorem C25_accepted : forall c sn pto now b,
  c_tsbd c = Some b -> 0 <= b -> 0 < c_seg_dur c ->
  ((exists r, generate_period_data c sn pto now = Ok r) <->
   (supported (c_pph c) /\ (0 < c_insert_ad c -> c_xlink c <> 0) /\
    forall n pd, multi c n pd ->
      (0 < c_etp c -> (Z.min (c_etp c) 60 | n) /\ early_length c pd <= pd) /\
      (0 < c_callback c -> (Z.min (c_callback c) 60 | n)))).
Proof. exact C25_accepted_pf. Qed.
(* examples meeting the hypotheses: ex_accepted *)
Print Assumptions C25_accepted.

Theorem C25_selected : forall c sn pto now n pd b mup l p nr,
  multi c n pd -> c_tsbd c = Some b -> 0 < c_seg_dur c ->
  generate_period_data c sn pto now = Ok (mup, l) -> In p l -> pd_id p = ("p" ++ print_Z nr)%string ->
  pd_start_s p = nr * pd /\
  (selected n (c_etp c) nr -> pd_etp p = Some (early_length c pd)) /\
  (~ selected n (c_etp c) nr -> pd_etp p = None) /\
  (pd_callback p = true <-> selected n (c_callback c) nr).
Proof. exact C25_selected_pf. Qed.
(* examples meeting the hypotheses: ex_selected *)
Print Assumptions C25_selected.

(** A period that is in two manifests is the same in both. *)
Theorem C25_time_independent : forall c sn1 pto1 now1 mup1 l1 p1 sn2 pto2 now2 mup2 l2 p2 n pd b,
  multi c n pd -> c_tsbd c = Some b -> 0 < c_seg_dur c ->
  generate_period_data c sn1 pto1 now1 = Ok (mup1, l1) -> In p1 l1 ->
  generate_period_data c sn2 pto2 now2 = Ok (mup2, l2) -> In p2 l2 ->
  pd_id p1 = pd_id p2 ->
  pd_start p1 = pd_start p2 /\ pd_start_number p1 = pd_start_number p2 /\ pd_pto p1 = pd_pto p2 /\
  pd_start_s p1 = pd_start_s p2 /\ pd_etp p1 = pd_etp p2 /\ pd_callback p1 = pd_callback p2.
Proof. exact C25_time_independent_pf. Qed.
(* examples meeting the hypotheses: ex_time_independent *)
Print Assumptions C25_time_independent.

(** The checks made before the manifest is generated. *)
Theorem C25_xlink_checks : forall c,
  (mpd_option_checks c = Ok tt <->
   (0 < c_xlink c -> c_pph c <> -1 /\ (Z.min (c_xlink c) 60 | Z.min (c_pph c) 60)) /\
   (0 < c_insert_ad c -> 0 <= c_xlink c)) /\
  (mpd_option_checks c = Ok tt \/ mpd_option_checks c = Err "Exception").
Proof. exact C25_xlink_checks_pf. Qed.
(* examples meeting the hypotheses: ex_xlink_checks *)
Print Assumptions C25_xlink_checks.

Theorem C56_single_period_partial : forall read base opts name mfile rp v ct m c now b,
  Forall (fun kv => str_in (fst kv) url_cfg_keys = true) opts -> plain_name name ->
  process_url read base (manifest_parts opts name mfile) now = Ok c ->
  read name = Ok v -> split_dunder rp = [rp] -> content_type_for_rep (v_media v) rp = Some (ct, m) ->
  wf_cfg c -> c_pph c = -1 -> c_insert_ad c <= 0 -> (forall u, c_multi_url c <> [u]) ->
  c_ato c = Some 0%Q -> c_tsbd c = Some b -> 0 <= b ->
  c_stop_time c = None -> c_last_nrs c = [] -> c_aet c = None ->
  (c_timeoffset c = None \/ (c_start_nr c <> -1 /\ first_nr c <> -1)) ->
  exists k p, adjusted_start_number c = Ok k /\
    generate_period_data c k (adjusted_pto c 0 1) now = Ok (None, [p]) /\
    pd_start_number p = print_Z k /\
    let s := effective_number k in
    let d := c_seg_dur c in
    let latest := (now - c_ast c - pd_start_s p) / d + s - 1 in
    let served n := exists sv, request read base (media_parts opts name rp (print_nat n ++ ".m4s")) (inject_Z now) = Ok (Serve sv) in
    (* from the first number on, every segment that overlaps the shift buffer *)
    (forall n, 0 <= n -> s <= n <= latest -> now - b <= c_ast c + (n - s + 1) * d -> served n) /\
    (0 <= latest + 1 -> ~ served (latest + 1)).
Proof. exact C56_single_period_partial_pf. Qed.
(* examples meeting the hypotheses: ex_window *)
Print Assumptions C56_single_period_partial.

(** In multi-period manifests the same holds period by period, as far as the
    default start number, the epoch start and aligned periods go. *)
Theorem C56_multi_period_partial : forall read base opts name mfile rp v ct m c now b n pd sn pto mup l,
  Forall (fun kv => str_in (fst kv) url_cfg_keys = true) opts -> plain_name name ->
  process_url read base (manifest_parts opts name mfile) now = Ok c ->
  read name = Ok v -> split_dunder rp = [rp] -> content_type_for_rep (v_media v) rp = Some (ct, m) ->
  wf_cfg c -> multi c n pd -> (c_seg_dur c | pd) -> (forall u, c_multi_url c <> [u]) ->
  c_ato c = Some 0%Q -> c_tsbd c = Some b -> 0 <= b ->
  c_stop_time c = None -> c_last_nrs c = [] -> c_aet c = None ->
  c_timeoffset c = None -> c_start_nr c = 0 -> c_ast c = 0 ->
  generate_period_data c sn pto now = Ok (mup, l) ->
  forall p, In p l -> 0 <= pd_start_s p -> exists k, pd_start_number p = print_Z k /\
    let d := c_seg_dur c in
    let latest := (now - c_ast c - pd_start_s p) / d + k - 1 in
    let served n := exists sv, request read base (media_parts opts name rp (print_nat n ++ ".m4s")) (inject_Z now) = Ok (Serve sv) in
    (forall n, k <= n <= latest -> now - b <= c_ast c + pd_start_s p + (n - k + 1) * d -> served n) /\
    (0 <= latest + 1 -> ~ served (latest + 1)).
Proof. exact C56_multi_period_partial_pf. Qed.
(* examples meeting the hypotheses: ex_window_multi *)
Print Assumptions C56_multi_period_partial.

(** timeoffset 6 moves the start number to -1, which the manifest drops (default
    1), while the server counts from -1: the numbers differ by two. *)
Theorem C56_minus_one_refuted : exists c now k p,
  wf_cfg c /\ c_pph c = -1 /\ c_ato c = Some 0%Q /\ c_stop_time c = None /\ c_start_nr c = 0 /\
  adjusted_start_number c = Ok k /\ generate_period_data c k (adjusted_pto c 0 1) now = Ok (None, [p]) /\
  pd_start_number p = print_Z k /\ effective_number k <> first_nr c.
Proof. exact C56_minus_one_refuted_pf. Qed.
Print Assumptions C56_minus_one_refuted.

Theorem C56_time_offset_refuted : exists read base opts name mfile rp c now mup l p k,
  process_url read base (manifest_parts opts name mfile) now = Ok c /\
  c_ato c = Some 0%Q /\ c_stop_time c = None /\ c_last_nrs c = [] /\ c_start_nr c = 0 /\ c_ast c = 0 /\ whole_offset c /\
  generate_period_data c (c_start_nr c) 0 now = Ok (mup, l) /\ In p l /\ pd_start_number p = print_Z k /\
  let latest := (now - c_ast c - pd_start_s p) / c_seg_dur c + k - 1 in
  k <= latest /\
  exists why, request read base (media_parts opts name rp (print_nat latest ++ ".m4s")) (inject_Z now) = Ok (Refuse why).
Proof. exact C56_time_offset_refuted_pf. Qed.
Print Assumptions C56_time_offset_refuted.
