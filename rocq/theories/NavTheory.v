(** Property C82: the parser finds the boxes of a file. *)
From Coq Require Import ZifyBool ZifyNat.
From Verif Require Import Base BaseProofs BytesModel BytesProofs BoxSpec ChunkModel BoxesModel LangModel ReadersModel NavModel NavSpec NavProofs NavTracks.
Open Scope Z_scope.

Lemma C82_parse_partial_pf : forall l, l <> [] -> Forall well_made l -> file_readable l -> parse_file (file_bytes l) = Ok (file_tree l).
Proof. exact file_parsed. Qed.

Lemma C82_find_pf : forall p path, p <> [] -> path <> [] ->
  exists l, find_all p path = Ok l /\ find_first p path = Ok (hd_error l) /\ forall q, In q l <-> reached p path q.
Proof.
  intros p path P N. exists (walk p path). split; [apply find_all_walk; assumption|]. split; [apply find_first_walk; assumption|]. intros q. apply walk_reached.
Qed.

Lemma C82_order_pf : forall l path places, Forall well_made l -> path <> [] -> find_all [file_tree l] path = Ok places -> in_file_order places.
Proof.
  intros l path places W N H. rewrite find_all_walk in H by (assumption || discriminate). inversion H; subst. apply file_walk_fits; [|exact N].
  rewrite Forall_forall in *. intros x X. apply made_four. apply W. exact X.
Qed.

Lemma C82_tracks_partial_pf : forall l tkhd mdhd track scale, Forall well_made l -> file_readable l -> header_says tkhd track -> header_says mdhd scale ->
  (first_track "vmhd" l tkhd mdhd -> get_video_info (file_bytes l) = Ok (Some track, scale)) /\
  (first_track "smhd" l tkhd mdhd -> get_audio_info (file_bytes l) = Ok (Some track, scale)) /\
  (first_track "nmhd" l tkhd mdhd -> get_timed_text_info (file_bytes l) = Ok (Some track, scale)).
Proof.
  intros l tk md track scale W R HT HM. destruct plain_names as (_ & _ & _ & _ & _ & _ & Pv & Ps & Pn).
  repeat split; intros F; eapply first_of_kind; eassumption.
Qed.
Lemma C82_no_video_partial_pf : forall l, l <> [] -> Forall well_made l -> file_readable l -> no_track "vmhd" l -> get_video_info (file_bytes l) = Ok (None, 0).
Proof. intros l N W R H. destruct plain_names as (_ & _ & _ & _ & _ & _ & Pv & _). exact (none_of_kind "vmhd" l true Pv N W R H). Qed.

(** ** A file with a video and an audio track *)
Definition zeros (n : nat) : bytes := repeat 0 n.
Definition leaf_ (t : string) (p : bytes) : node := Part (bstr t) p [].
Definition C82_tkhd (track : Z) : node := leaf_ "tkhd" (0 :: [0; 0; 7] ++ zeros 8 ++ be32 track ++ zeros 68).
Definition C82_mdhd (scale : Z) : node := leaf_ "mdhd" (1 :: [0; 0; 0] ++ zeros 16 ++ be32 scale ++ zeros 12).
Definition C82_track (track scale : Z) (header : string) (entry : node) : node :=
  Part (bstr "trak") [] [C82_tkhd track; Part (bstr "mdia") [] [C82_mdhd scale;
    Part (bstr "minf") [] [leaf_ header (zeros 8); Part (bstr "stbl") [] [Part (bstr "stsd") (zeros 8) [entry]]]]].
Definition C82_video : node := Part (bstr "avc1") (zeros 78) [leaf_ "btrt" (zeros 12)].
Definition C82_audio : node := Part (bstr "mp4a") (zeros 28) [leaf_ "btrt" (zeros 12)].
Definition C82_ftyp : node := leaf_ "ftyp" (bstr "isom" ++ be32 1 ++ bstr "isomdash").
Definition C82_file : list node :=
  [C82_ftyp; Part (bstr "moov") [] [leaf_ "mvhd" (zeros 100); C82_track 7 90000 "smhd" C82_audio; C82_track 5 12800 "vmhd" C82_video]; leaf_ "mdat" [1; 2; 3]].
Ltac is_holder := unfold holders; cbn [map app In]; repeat (first [left; reflexivity | right]).
Ltac no_holder := let k := fresh in let H := fresh in intros k H; unfold holders in H; cbn [map app In] in H; repeat (destruct H as [H|H]; [discriminate|]); exact H.
Ltac all_in := vm_compute; repeat (apply Forall_cons; [split; discriminate|]); apply Forall_nil.
Ltac made_file := repeat match goal with
  | |- Forall well_made _ => constructor
  | |- well_made (Part _ _ (_ :: _)) => eapply well_made_holder; [is_holder|reflexivity|discriminate| |vm_compute; reflexivity]
  | |- well_made (Part _ _ []) => apply well_made_leaf; [reflexivity|all_in|vm_compute; intuition discriminate|no_holder|vm_compute; reflexivity]
  end.
Lemma C82_file_made : Forall well_made C82_file.
Proof.
  unfold C82_file, C82_ftyp, C82_track, C82_tkhd, C82_mdhd, C82_video, C82_audio, leaf_. made_file.
Qed.
Lemma C82_file_readable : file_readable C82_file.
Proof. vm_compute. repeat split. Qed.
Example C82_parse_partial_case : C82_file <> [] /\ Forall well_made C82_file /\ file_readable C82_file /\ List.length (p_kids (file_tree C82_file)) = 3%nat.
Proof. split; [discriminate|]. split; [exact C82_file_made|]. split; [exact C82_file_readable|]. reflexivity. Qed.
Example C82_find_case : find_all [file_tree C82_file] (map bstr ["moov"; "trak"; "mdia"; "minf"]%string) <> Ok [].
Proof. vm_compute. discriminate. Qed.
Example C82_order_case : Forall well_made C82_file /\ exists a b, find_all [file_tree C82_file] (map bstr ["moov"; "trak"]%string) = Ok [a; b].
Proof. split; [exact C82_file_made|]. eexists _, _. vm_compute. reflexivity. Qed.
Ltac is_track := do 3 eexists; split; [exists [C82_ftyp]; eexists; split; [reflexivity|split; [reflexivity|repeat constructor; discriminate]]|].
Lemma C82_file_video : first_track "vmhd" C82_file (C82_tkhd 5) (C82_mdhd 12800).
Proof.
  is_track. split; [exists [leaf_ "mvhd" (zeros 100); C82_track 7 90000 "smhd" C82_audio], []; split; [reflexivity|]; split|].
  - split; [reflexivity|]. do 3 eexists. split; [right; left; reflexivity|]. split; [reflexivity|]. split; [right; left; reflexivity|]. split; [reflexivity|]. split; [left; reflexivity|reflexivity].
  - constructor; [intros [H _]; discriminate|]. constructor; [|constructor]. intros [_ (d & i & h & D & Td & I & Ti & H & Th)].
    cbn in D. destruct D as [<-|[<-|[]]]; [discriminate|]. cbn in I. destruct I as [<-|[<-|[]]]; [discriminate|]. cbn in H. destruct H as [<-|[<-|[]]]; discriminate.
  - split; [exists [C82_tkhd 5], []; split; [reflexivity|]; split; [reflexivity|repeat constructor; discriminate]|].
    split; [exists []; eexists; split; [reflexivity|]; split; [reflexivity|constructor]|]. exists []; eexists; split; [reflexivity|]; split; [reflexivity|constructor].
Qed.
Example C82_tracks_partial_case : Forall well_made C82_file /\ file_readable C82_file /\ header_says (C82_tkhd 5) 5 /\ header_says (C82_mdhd 12800) 12800 /\ first_track "vmhd" C82_file (C82_tkhd 5) (C82_mdhd 12800).
Proof.
  split; [exact C82_file_made|]. split; [exact C82_file_readable|]. split; [|split; [|exact C82_file_video]].
  - do 4 eexists. split; [reflexivity|]. split; [reflexivity|]. split; [lia|]. left. split; reflexivity.
  - do 4 eexists. split; [reflexivity|]. split; [reflexivity|]. split; [lia|]. right. split; reflexivity.
Qed.
Definition C82_silent : list node := [C82_ftyp; Part (bstr "moov") [] [leaf_ "mvhd" (zeros 100); C82_track 7 90000 "smhd" C82_audio]].
Lemma C82_silent_made : Forall well_made C82_silent /\ file_readable C82_silent.
Proof.
  split; [unfold C82_silent, C82_ftyp, C82_track, C82_tkhd, C82_mdhd, C82_audio, leaf_; made_file|]. vm_compute. repeat split.
Qed.
Example C82_no_video_partial_case : C82_silent <> [] /\ Forall well_made C82_silent /\ file_readable C82_silent /\ no_track "vmhd" C82_silent.
Proof.
  split; [discriminate|]. split; [apply C82_silent_made|]. split; [apply C82_silent_made|]. intros moov trak M Tm T [Tt (d & i & h & D & Td & I & Ti & H & Th)].
  cbn in M. destruct M as [<-|[<-|[]]]; [discriminate|]. cbn in T. destruct T as [<-|[<-|[]]]; [discriminate|].
  cbn in D. destruct D as [<-|[<-|[]]]; [discriminate|]. cbn in I. destruct I as [<-|[<-|[]]]; [discriminate|]. cbn in H. destruct H as [<-|[<-|[]]]; discriminate.
Qed.

(** ** What the parser does not find *)
Ltac formed_file := repeat match goal with
  | |- Forall formed _ => constructor
  | |- formed (Part _ _ _) => apply formed_leaf; [reflexivity|all_in|all_in|no_holder|vm_compute; reflexivity]
  | |- formed (Part _ _ _) => eapply formed_holder; [is_holder|reflexivity|all_in| |vm_compute; reflexivity]
  end.
Ltac not_found := unfold found; vm_compute; discriminate.
(** An empty box for boxes at the end of the file *)
Lemma C82_empty_last_refuted_pf : exists l e, Forall formed l /\ parse_file (file_bytes l) = Err e.
Proof.
  exists [C82_ftyp; Part (bstr "moov") [] [Part (bstr "udta") [] []]], "struct.error"%string. unfold C82_ftyp, leaf_. split; [formed_file|]. vm_compute. reflexivity.
Qed.
(** An empty box for boxes takes in the boxes after it. *)
Lemma C82_empty_refuted_pf : exists l, Forall formed l /\ ~ found l.
Proof.
  exists [Part (bstr "moov") [] [Part (bstr "udta") [] []; leaf_ "free" []]; leaf_ "free" [1]]. unfold leaf_. split; [formed_file|]. not_found.
Qed.
(** A type with a byte above 127, such as the copyright sign in the names of meta data *)
Lemma C82_type_refuted_pf : exists l, Forall formed l /\ parse_file (file_bytes l) = Err "UnicodeDecodeError".
Proof.
  exists [Part (bstr "moov") [] [Part (bstr "udta") [] [Part (169 :: bstr "nam") (zeros 4) []]]]. split; [formed_file|]. vm_compute. reflexivity.
Qed.
(** The scheme of a protected track gets another type. *)
Lemma C82_scheme_refuted_pf : exists l b, Forall formed l /\ parse_file (file_bytes l) = Ok b /\ find_first [b] (map bstr ["sinf"; "schm"]%string) = Ok None
  /\ find_first [file_tree l] (map bstr ["sinf"; "schm"]%string) <> Ok None.
Proof.
  exists [Part (bstr "sinf") [] [leaf_ "frma" (bstr "avc1"); leaf_ "schm" (zeros 4 ++ bstr "cenc" ++ [0; 1; 0; 0])]]. eexists. unfold leaf_. split; [formed_file|].
  split; [vm_compute; reflexivity|]. split; [vm_compute; reflexivity|]. vm_compute. discriminate.
Qed.
(** AC-3 sound *)
Lemma C82_ac3_refuted_pf : exists l, Forall formed l /\ parse_file (file_bytes l) = Err "TypeError".
Proof. exists [Part (bstr "stsd") (zeros 8) [Part (bstr "ac-3") (zeros 28) [leaf_ "dac3" [16; 61; 192]]]]. unfold leaf_. split; [formed_file|]. vm_compute. reflexivity. Qed.
(** Sizes of 64 bits and no size (ISO/IEC 14496-12 4.2) *)
Lemma C82_long_refuted_pf : exists l b, Forall well_made l /\ l <> [] /\ parse_file (be32 1 ++ bstr "moov" ++ be64 (16 + blen (file_bytes l)) ++ file_bytes l) = Ok b
  /\ find_all [b] [bstr "moov"; n_type (hd C82_ftyp l)] = Ok [].
Proof. exists [leaf_ "mvhd" (zeros 100)]. eexists. unfold leaf_. split; [made_file|]. split; [discriminate|]. split; vm_compute; reflexivity. Qed.
Lemma C82_to_end_refuted_pf : exists l p b, Forall well_made l /\ parse_file (file_bytes l ++ be32 0 ++ bstr "mdat" ++ p) = Ok b /\ find_all [b] [bstr "mdat"] = Ok [].
Proof. exists [C82_ftyp], [1; 2; 3]. eexists. unfold C82_ftyp, leaf_. split; [made_file|]. split; vm_compute; reflexivity. Qed.
(** A file without sound *)
Lemma C82_no_audio_refuted_pf : exists l, Forall well_made l /\ file_readable l /\ no_track "smhd" l /\ no_track "nmhd" l /\ get_audio_info (file_bytes l) = Err "AttributeError"
  /\ get_timed_text_info (file_bytes l) = Err "AttributeError".
Proof.
  exists [C82_ftyp]. unfold C82_ftyp, leaf_. split; [made_file|]. split; [vm_compute; repeat split|].
  split; [|split; [|split; vm_compute; reflexivity]]; intros moov trak [<-|[]] T; discriminate.
Qed.
(** The parameter sets of a track with the sample entry avc3 (ISO/IEC 14496-15 5.4.2) *)
Lemma C82_avc3_refuted_pf : exists l b, parse_file (file_bytes l) = Ok b /\ find_first [b] (map bstr ["stsd"; "avc3"; "avcC"]%string) = Ok None
  /\ find_first [file_tree l] (map bstr ["stsd"; "avc3"; "avcC"]%string) <> Ok None.
Proof.
  exists [Part (bstr "stsd") (zeros 8) [Part (bstr "avc3") (zeros 78) [leaf_ "avcC" [1; 100; 0; 31; 255; 224; 0]]]]. eexists.
  split; [vm_compute; reflexivity|]. split; [vm_compute; reflexivity|]. vm_compute. discriminate.
Qed.
