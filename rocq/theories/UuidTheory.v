(** Statements about boxes with extended types (C90). *)
From Verif Require Import Base BaseProofs BytesModel BytesProofs BoxSpec HeadSpec ChunkModel UuidModel UuidSpec UuidProofs.
Open Scope Z_scope.

(** ** C90 *)
(** Type, version and flags of a box with an extended type, for any content. *)
Lemma C90_extended_pf : forall pre post type v flags c, blen type = 16 -> fits 8 v -> fits 24 flags ->
  uuid_at (pre ++ uuid_box type v flags c ++ post) (blen pre) = Ok (type, v, flags).
Proof. intros pre post type v flags c T V F. exact (proj1 (uuid_read pre post type v flags c T V F)). Qed.
Definition ex_type : bytes := [109; 29; 155; 5; 66; 213; 68; 230; 128; 226; 20; 29; 175; 247; 87; 178].
Example C90_extended_case : uuid_at ([1; 2] ++ uuid_box ex_type 1 3 [7; 7] ++ [9]) 2 = Ok (ex_type, 1, 3).
Proof. vm_compute. reflexivity. Qed.
(** Time and duration of a fragment, from a box anywhere in a file, with the
    version and the content of the box. *)
Lemma C90_fragment_time_pf : forall pre post type v flags p, blen type = 16 -> fits 8 v -> fits 24 flags -> pair_ok v p ->
  let b := uuid_box type v flags (pair_at v p) in
  let file := (pre ++ b ++ post)%list in
  exists v', uuid_at file (blen pre) = Ok (type, v', flags) /\
    tfxd_of (bslice (blen pre + uuid_content_at) (blen pre + blen b) file) v' = Ok p.
Proof.
  intros pre post type v flags p T V F P b file. exists v. destruct (uuid_read pre post type v flags (pair_at v p) T V F) as [A B].
  split; [exact A|]. unfold file, b. rewrite B. unfold tfxd_of. rewrite <- (app_nil_r (pair_at v p)), pair_read by exact P. reflexivity.
Qed.
Example C90_fragment_time_case : pair_ok 1 (9000000000, 20000000) /\
  tfxd_of (pair_at 1 (9000000000, 20000000)) 1 = Ok (9000000000, 20000000) /\ tfxd_of (pair_at 0 (5, 6)) 0 = Ok (5, 6).
Proof. split; [split; split; vm_compute; (reflexivity || discriminate)|]. split; vm_compute; reflexivity. Qed.
(** Times and durations of the fragments that follow. *)
Lemma C90_next_times_pf : forall pre post type v flags l, blen type = 16 -> fits 8 v -> fits 24 flags ->
  Z.of_nat (List.length l) < 256 -> Forall (pair_ok v) l ->
  let b := uuid_box type v flags (next_content v l) in
  let file := (pre ++ b ++ post)%list in
  exists v', uuid_at file (blen pre) = Ok (type, v', flags) /\
    tfrf_of (bslice (blen pre + uuid_content_at) (blen pre + blen b) file) v' = Ok l.
Proof.
  intros pre post type v flags l T V F N P b file. exists v. destruct (uuid_read pre post type v flags (next_content v l) T V F) as [A B].
  split; [exact A|]. unfold file, b. rewrite B. apply next_read; assumption.
Qed.
Example C90_next_times_case : let l := [(9000000000, 20000000); (9020000000, 20000000)] in
  Forall (pair_ok 1) l /\ tfrf_of (next_content 1 l) 1 = Ok l.
Proof. cbv zeta. split; [|vm_compute; reflexivity]. repeat constructor; vm_compute; (reflexivity || discriminate). Qed.
