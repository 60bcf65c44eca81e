(** Statements about the readers of protection headers, decoder records and media
    adjustments (C86). *)
From Verif Require Import Base BaseProofs BytesModel BytesProofs BoxSpec Mp4Proofs HeadModel HeadSpec HeadProofs.
Open Scope Z_scope.

(** ** C86 *)
(** A protection header: system, key ids and size of the data, wherever the box
    stands in the file. *)
Lemma C86_pssh_partial_pf : forall pre post v flags system kids d, pssh_proper v flags system kids d ->
  pssh_at (pre ++ plain_box (bstr "pssh") (pssh_content v flags system kids d) ++ post) (blen pre) = Ok (mk_pssh system kids (blen d)).
Proof. exact pssh_read. Qed.
Example C86_pssh_partial_case : pssh_proper 1 0 (repeat 7 16) [repeat 1 16; repeat 2 16] [9; 9; 9] /\
  pssh_at ([1; 2; 3] ++ plain_box (bstr "pssh") (pssh_content 1 0 (repeat 7 16) [repeat 1 16; repeat 2 16] [9; 9; 9]) ++ [4]) 3 =
    Ok (mk_pssh (repeat 7 16) [repeat 1 16; repeat 2 16] 3).
Proof.
  split; [|vm_compute; reflexivity]. unfold pssh_proper, fits. split; [lia|]. split; [lia|]. split; [reflexivity|].
  split; [repeat constructor|]. split; [discriminate|]. split; reflexivity.
Qed.
(** A decoder record: every field and every parameter set. *)
Lemma C86_hevc_partial_pf : forall pre post h, hvcc_proper h ->
  let b := plain_box (bstr "hvcC") (hvcc_content h) in hvcc_at (pre ++ b ++ post) (blen pre) (blen b) = Ok h.
Proof. exact hvcc_read. Qed.
Definition ex_hvcc : hvcc :=
  mk_hvcc 1 0 1 2 [32; 0; 0; 0] [144; 0; 0; 0; 0; 0] 93 0 0 1 2 2 0 0 1 1 3 2
    [mk_array 1 32 [[64; 1; 12]; [64; 1]]; mk_array 0 34 [[68]]].
Example C86_hevc_partial_case : hvcc_proper ex_hvcc /\
  hvcc_at ([1; 2] ++ plain_box (bstr "hvcC") (hvcc_content ex_hvcc) ++ [3]) 2 (blen (plain_box (bstr "hvcC") (hvcc_content ex_hvcc))) = Ok ex_hvcc.
Proof.
  split; [|vm_compute; reflexivity]. unfold hvcc_proper, ex_hvcc.
  cbn [hv_version hv_space hv_tier hv_profile hv_compat hv_constraint hv_level hv_spatial hv_parallel hv_chroma hv_luma_depth
    hv_chroma_depth hv_rate hv_constant hv_layers hv_nested hv_length_size hv_num hv_arrays].
  unfold fits. repeat match goal with
    | |- _ /\ _ => split | |- _ <= _ < _ => split | |- Forall _ (_ :: _) => constructor | |- Forall _ [] => constructor
    | |- array_proper _ => unfold array_proper, fits; cbn [na_complete na_type na_units] end;
    cbv beta; try split; first [vm_compute; reflexivity | vm_compute; discriminate].
Qed.
(** Media adjustments: number, durations, signed times and rates. *)
Lemma C86_adjustments_partial_pf : forall pre post v flags l, fits 8 v -> fits 24 flags ->
  Z.of_nat (List.length l) < 4294967296 -> Forall (edit_proper v) l ->
  let b := plain_box (bstr "tfma") (edits_content v flags l) in
  tfma_at (pre ++ b ++ post) (blen pre) (blen b) = Ok (Z.of_nat (List.length l), l).
Proof. exact tfma_read. Qed.
Example C86_adjustments_partial_case :
  let l := [mk_adj 1000 (-1) 1 0; mk_adj 9000000000 3600 1 0] in
  Forall (edit_proper 1) l /\
  tfma_at ([5] ++ plain_box (bstr "tfma") (edits_content 1 0 l) ++ []) 1 (blen (plain_box (bstr "tfma") (edits_content 1 0 l))) = Ok (2, l).
Proof.
  cbv zeta. split; [|vm_compute; reflexivity]. repeat constructor; cbn; lia.
Qed.
(** The data of the system in version 0: it starts at the position the reader
    keeps for the children of the box. *)
Lemma C86_data_position_partial_pf : forall pre post flags system d, pssh_proper 0 flags system [] d ->
  bslice (pssh_childpos (blen pre)) (pssh_childpos (blen pre) + blen d)
    (pre ++ plain_box (bstr "pssh") (pssh_content 0 flags system [] d) ++ post) = d.
Proof.
  intros pre post flags system d (_ & _ & S & _). unfold pssh_childpos.
  unfold plain_box, pssh_content. cbn [Z.eqb app].
  set (x := be32 (8 + blen (versioned 0 flags ++ system ++ be32 (blen d) ++ d))).
  replace (pre ++ (x ++ bstr "pssh" ++ versioned 0 flags ++ system ++ be32 (blen d) ++ d) ++ post)%list
    with ((pre ++ x ++ bstr "pssh" ++ versioned 0 flags ++ system ++ be32 (blen d)) ++ d ++ post)%list by (rewrite <- !app_assoc; reflexivity).
  replace (blen pre + 32) with (blen (pre ++ x ++ bstr "pssh" ++ versioned 0 flags ++ system ++ be32 (blen d))).
  - unfold bslice, btake, bdrop, blen. rewrite Nat2Z.id, skipn_app, skipn_all, Nat.sub_diag. cbn [skipn app].
    replace (Z.to_nat _) with (List.length d) by lia. rewrite firstn_app, firstn_all, Nat.sub_diag. cbn [firstn]. apply app_nil_r.
  - rewrite !blen_app, S. unfold x, versioned. rewrite !blen_be32. reflexivity.
Qed.
Example C86_data_position_partial_case : pssh_proper 0 0 (repeat 7 16) [] [9; 8] /\
  bslice (pssh_childpos 1) (pssh_childpos 1 + 2) ([1] ++ plain_box (bstr "pssh") (pssh_content 0 0 (repeat 7 16) [] [9; 8]) ++ [4]) = [9; 8].
Proof.
  split; [|vm_compute; reflexivity]. unfold pssh_proper, fits. split; [lia|]. split; [lia|]. split; [reflexivity|].
  split; [constructor|]. split; [reflexivity|]. split; reflexivity.
Qed.
(** With key ids it does not: the position is 32 bytes into the box also when the
    list of key ids stands there. *)
Lemma C86_data_position_refuted_pf : exists pre post v flags system kids d, pssh_proper v flags system kids d /\
  let file := (pre ++ plain_box (bstr "pssh") (pssh_content v flags system kids d) ++ post)%list in
  bslice (blen pre + pssh_data_at v kids) (blen pre + pssh_data_at v kids + blen d) file = d /\
  bslice (pssh_childpos (blen pre)) (pssh_childpos (blen pre) + blen d) file <> d /\
  pssh_childpos (blen pre) <> blen pre + pssh_data_at v kids.
Proof.
  exists [], [], 1, 0, (repeat 7 16), [repeat 1 16], [9; 8]. split.
  - unfold pssh_proper, fits. split; [lia|]. split; [lia|]. split; [reflexivity|].
    split; [repeat constructor|]. split; [discriminate|]. split; reflexivity.
  - cbv zeta. split; [vm_compute; reflexivity|]. split; vm_compute; discriminate.
Qed.
