(** Statements about the encryption of single samples (C89). *)
From Verif Require Import Base BaseProofs BytesModel BytesProofs BoxSpec HeadSpec ChunkModel ReadersModel GencModel GencSpec GencProofs.
Open Scope Z_scope.

Definition meant (s : string) : pytext := PBytes (bstr s).
(** A fragment: tfhd, saiz and, if there are groups, sbgp and sgpd; the tenc box
    of its track. *)
Definition fragment (data : bytes) (l : list child) (tenc_of : Z -> option Z) (groups : list (Z * values)) (track : values) (n : Z) : Prop :=
  exists tfhd id saiz o,
    get_sibling l (meant "tfhd") = Some tfhd /\ u32_at data (ch_offset tfhd + 12) = Ok id /\ tenc_of id = Some o /\ tenc_info data o = Ok track /\
    get_sibling l (meant "saiz") = Some saiz /\ saiz_count data (ch_offset saiz) = Ok n /\ 0 <= n /\
    ((get_sibling l (meant "sbgp") = None /\ groups = []) \/
     exists sbgp, get_sibling l (meant "sbgp") = Some sbgp /\ sbgp_entries data (ch_offset sbgp) = Ok (Z.of_nat (List.length groups)) /\
       grouped data sbgp (get_sibling l (meant "sgpd")) (Some o) 0 groups).
(** Track 1; two samples of group 1, one of group 0, then four samples more. *)
Definition ex_data : bytes :=
  be32 16 ++ bstr "tfhd" ++ [0; 2; 0; 0] ++ be32 1 ++
  be32 36 ++ bstr "sbgp" ++ [0; 0; 0; 0] ++ bstr "seig" ++ be32 2 ++ be32 2 ++ be32 1 ++ be32 1 ++ be32 0 ++
  be32 40 ++ bstr "sgpd" ++ [0; 0; 0; 0] ++ bstr "seig" ++ be32 1 ++ [0; 0; 1; 8] ++ repeat 5 16 ++
  be32 17 ++ bstr "saiz" ++ [0; 0; 0; 0] ++ [8] ++ be32 7 ++
  be32 32 ++ bstr "tenc" ++ [0; 0; 0; 0] ++ [0; 0; 1; 16] ++ repeat 6 16.
Definition ex_children : list child :=
  [mk_child (bstr "tfhd") 0 16; mk_child (bstr "sbgp") 16 36; mk_child (bstr "sgpd") 52 40; mk_child (bstr "saiz") 92 17; mk_child (bstr "genc") 200 12].
Definition ex_tenc (id : Z) : option Z := if id =? 1 then Some 109 else None.
Definition ex_groups : list (Z * values) := [(2, (1, 8, repeat 5 16)); (1, (1, 16, repeat 6 16))].
Lemma ex_fragment : fragment ex_data ex_children ex_tenc ex_groups (1, 16, repeat 6 16) 7.
Proof.
  exists (mk_child (bstr "tfhd") 0 16), 1, (mk_child (bstr "saiz") 92 17), 109.
  split; [reflexivity|]. split; [vm_compute; reflexivity|]. split; [reflexivity|]. split; [vm_compute; reflexivity|]. split; [reflexivity|].
  split; [vm_compute; reflexivity|]. split; [lia|]. right. exists (mk_child (bstr "sbgp") 16 36).
  split; [reflexivity|]. split; [vm_compute; reflexivity|]. unfold ex_groups. cbn [grouped].
  split; [lia|]. split.
  - exists 1. split; [vm_compute; reflexivity|]. unfold stands. cbn [Z.eqb]. exists (mk_child (bstr "sgpd") 52 40). split; [reflexivity|vm_compute; reflexivity].
  - split; [lia|]. split; [|exact I]. exists 0. split; [vm_compute; reflexivity|]. unfold stands. cbn [Z.eqb]. vm_compute. reflexivity.
Qed.

(** ** C89 *)
(** If the types were looked for as bytes, the map would say for each sample what
    its group or its track says. *)
Lemma C89_map_partial_pf : forall data l tenc_of groups track n, fragment data l tenc_of groups track n ->
  exists m, init_sample_map meant data l tenc_of = Ok m /\ forall i, 0 <= i -> sample_encrypted_info m i = encryption groups track n i.
Proof.
  intros data l tenc_of groups track n (tfhd & id & saiz & o & F & U & T & TI & S & SC & N & G).
  unfold init_sample_map. rewrite F, U. cbn [bind]. rewrite T.
  assert (M : exists m, map_from_sbgp meant data l (Some o) = Ok m /\
    forall k, 0 <= k -> lookup k m = nth_error (spread groups) (Z.to_nat k)).
  { unfold map_from_sbgp. destruct G as [[-> ->] | (sbgp & -> & E & G)].
    - exists []. split; [reflexivity|]. intros k _. unfold spread. cbn [flat_map lookup]. destruct (Z.to_nat k); reflexivity.
    - rewrite E. cbn [bind]. rewrite Nat2Z.id. destruct (group_read groups data sbgp _ (Some o) 0 0 [] G ltac:(lia)) as (m & L & K).
      exists m. split; [exact L|]. intros k P. rewrite K. destruct (Z.leb_spec 0 k); [|lia]. rewrite Z.sub_0_r. cbn [lookup].
      destruct (nth_error (spread groups) (Z.to_nat k)); reflexivity. }
  destruct M as (m & -> & K). cbn [bind]. rewrite S, SC. cbn [bind].
  destruct (fill_read (Z.to_nat n) data (Some o) 0 m track TI) as (m' & -> & K'). exists m'. split; [reflexivity|].
  intros i P. unfold sample_encrypted_info, encryption. rewrite K', K by exact P. destruct (nth_error (spread groups) (Z.to_nat i)); [reflexivity|].
  rewrite Z2Nat.id, Z.add_0_l by exact N. destruct (Z.leb_spec 0 i); [|lia]. cbn [andb]. destruct (i <? n); reflexivity.
Qed.
Example C89_map_partial_case : fragment ex_data ex_children ex_tenc ex_groups (1, 16, repeat 6 16) 7 /\
  map (encryption ex_groups (1, 16, repeat 6 16) 7) [0; 1; 2; 6; 7] =
    [(1, 8, repeat 5 16); (1, 8, repeat 5 16); (1, 16, repeat 6 16); (1, 16, repeat 6 16); (0, 0, [])] /\
  (exists m, init_sample_map meant ex_data ex_children ex_tenc = Ok m /\ sample_encrypted_info m 1 = (1, 8, repeat 5 16)).
Proof.
  split; [exact ex_fragment|]. split; [vm_compute; reflexivity|].
  destruct (C89_map_partial_pf _ _ _ _ _ _ ex_fragment) as (m & E & K). exists m. split; [exact E|]. rewrite K by lia. vm_compute. reflexivity.
Qed.
(** The values of the track are those that its box has, without a pattern. *)
Lemma C89_track_partial_pf : forall pre post v flags e iv kid, tenc_proper v flags 0 e iv kid ->
  tenc_info (pre ++ tenc_box v flags 0 e iv kid ++ post) (blen pre) = Ok (e, iv, kid).
Proof. intros pre post v flags e iv kid P. rewrite (tenc_read pre post v flags 0 e iv kid P). reflexivity. Qed.
Example C89_track_partial_case : tenc_proper 0 0 0 1 8 (repeat 3 16) /\
  tenc_info ([1; 2] ++ tenc_box 0 0 0 1 8 (repeat 3 16) ++ [4]) 2 = Ok (1, 8, repeat 3 16).
Proof.
  split; [|vm_compute; reflexivity]. unfold tenc_proper, fits. repeat match goal with |- _ /\ _ => split end; try (vm_compute; reflexivity); try (vm_compute; discriminate).
Qed.
(** As the types are written, making the map fails for every fragment. *)
Lemma C89_no_map_pf : forall data l tenc_of, init_sample_map written data l tenc_of = Err "AttributeError".
Proof. intros. unfold init_sample_map, written. rewrite never_found. reflexivity. Qed.
Example C89_no_map_case : init_sample_map written ex_data ex_children ex_tenc = Err "AttributeError" /\
  exists m, init_sample_map meant ex_data ex_children ex_tenc = Ok m.
Proof. split; [vm_compute; reflexivity|]. eexists. vm_compute. reflexivity. Qed.
(** And as nothing makes the map, every sample is said to be in the clear. *)
Lemma C89_clear_refuted_pf : exists data l tenc_of groups track n, fragment data l tenc_of groups track n /\
  encryption groups track n 0 = (1, 8, repeat 5 16) /\ forall i, sample_encrypted_info constructed i = (0, 0, []).
Proof.
  exists ex_data, ex_children, ex_tenc, ex_groups, (1, 16, repeat 6 16), 7. split; [exact ex_fragment|]. split; [vm_compute; reflexivity|]. intros i. reflexivity.
Qed.
(** A pattern (one of ten blocks, version 1) becomes part of the encryption flag. *)
Lemma C89_pattern_refuted_pf : exists kid, tenc_proper 1 0 25 1 0 kid /\
  tenc_info (tenc_box 1 0 25 1 0 kid) 0 = Ok (6401, 0, kid).
Proof.
  exists (repeat 3 16). split; [|vm_compute; reflexivity]. unfold tenc_proper, fits.
  repeat match goal with |- _ /\ _ => split end; try (vm_compute; reflexivity); try (vm_compute; discriminate).
Qed.
