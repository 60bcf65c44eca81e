(** Lemmas for C82: the tracks of a file. *)
From Coq Require Import ZifyBool ZifyNat.
From Verif Require Import Base BaseProofs BytesModel BytesProofs BoxSpec Mp4Proofs ChunkModel ChunkParse BoxesModel LangModel ReadersModel ReadersProofs NavModel NavSpec NavProofs.
Open Scope Z_scope.

(** ** Trees of parts of a list *)
Lemma file_app : forall a b, file_bytes (a ++ b) = file_bytes a ++ file_bytes b.
Proof. intros. unfold file_bytes. rewrite map_app, concat_app. reflexivity. Qed.
Lemma trees_app : forall a b o, trees_at (a ++ b) o = trees_at a o ++ trees_at b (o + blen (file_bytes a)).
Proof.
  induction a as [|x a IH]; intros b o; cbn [app trees_at]; [f_equal; change (blen (file_bytes [])) with 0; lia|].
  rewrite IH, file_cons, blen_app. change (blen (node_bytes x)) with (node_size x). do 3 f_equal. lia.
Qed.
Lemma in_trees : forall l o k, In k (trees_at l o) -> exists x o', In x l /\ k = tree_at x o'.
Proof.
  induction l as [|x l IH]; intros o k H; [destruct H|]. destruct H as [<-|H]; [exists x, o; split; [left|]; reflexivity|].
  destruct (IH _ _ H) as (y & o' & I & E). exists y, o'. split; [right; exact I|exact E].
Qed.
Lemma trees_in : forall l o x, In x l -> exists o', In (tree_at x o') (trees_at l o).
Proof.
  induction l as [|y l IH]; intros o x H; [destruct H|]. destruct H as [->|H]; [exists o; left; reflexivity|].
  destruct (IH (o + node_size y) x H) as (o' & I). exists o'. right. exact I.
Qed.
Lemma tree_type : forall n o, p_type (tree_at n o) = named (n_type n).
Proof. intros [t h ks] o. reflexivity. Qed.
Lemma tree_kids : forall n o, p_kids (tree_at n o) = trees_at (n_kids n) (o + 8 + blen (n_head n)).
Proof. intros [t h ks] o. reflexivity. Qed.
Lemma tree_offset : forall n o, p_offset (tree_at n o) = o.
Proof. intros [t h ks] o. reflexivity. Qed.
Lemma tree_size : forall n o, p_size (tree_at n o) = node_size n.
Proof. intros [t h ks] o. reflexivity. Qed.
(** A type that the parser does not change *)
Definition plain (s : string) : Prop := bytes_eqb (bstr s) (bstr "ac_3") = false /\ bytes_eqb (bstr s) (bstr "ec_3") = false /\ bytes_eqb (bstr s) (bstr "ac-3") = false /\ bytes_eqb (bstr s) (bstr "ec-3") = false.
Lemma plain_type : forall s n o, plain s -> (bytes_eqb (p_type (tree_at n o)) (bstr s) = true <-> typed s n).
Proof.
  intros s n o (P1 & P2 & P3 & P4). rewrite tree_type. unfold typed, named. split; intros H.
  - apply bytes_eqb_eq in H. destruct (bytes_eqb (n_type n) (bstr "ac-3")) eqn:E1; [rewrite <- H, bytes_eqb_refl in P1; discriminate|].
    destruct (bytes_eqb (n_type n) (bstr "ec-3")) eqn:E2; [rewrite <- H, bytes_eqb_refl in P2; discriminate|]. exact H.
  - rewrite H, P3, P4. apply bytes_eqb_refl.
Qed.
Definition kid_places (s : string) (l : list node) (o : Z) (p : place) : list place := map (fun k => k :: p) (filter (fun k => bytes_eqb (p_type k) (bstr s)) (trees_at l o)).
Lemma kids_are : forall n o anc s, matching_children (tree_at n o :: anc) (bstr s) = kid_places s (n_kids n) (o + 8 + blen (n_head n)) (tree_at n o :: anc).
Proof. intros. unfold matching_children. rewrite tree_kids. reflexivity. Qed.
Lemma root_kids : forall l s, matching_children [file_tree l] (bstr s) = kid_places s l 0 [file_tree l].
Proof. reflexivity. Qed.
Lemma places_app : forall s a b o p, kid_places s (a ++ b) o p = kid_places s a o p ++ kid_places s b (o + blen (file_bytes a)) p.
Proof. intros. unfold kid_places. rewrite trees_app, filter_app, map_app. reflexivity. Qed.
Lemma places_none : forall s a o p, plain s -> Forall (fun y => ~ typed s y) a -> kid_places s a o p = [].
Proof.
  intros s a o p P H. revert o. induction H as [|x a Hx _ IH]; intros o; [reflexivity|]. unfold kid_places in *. cbn [trees_at filter].
  destruct (bytes_eqb (p_type (tree_at x o)) (bstr s)) eqn:E; [apply (plain_type s x o P) in E; contradiction|apply IH].
Qed.
Lemma places_cons : forall s x b o p, plain s -> typed s x -> kid_places s (x :: b) o p = (tree_at x o :: p) :: kid_places s b (o + node_size x) p.
Proof. intros s x b o p P H. unfold kid_places. cbn [trees_at filter]. rewrite (proj2 (plain_type s x o P) H). reflexivity. Qed.
Lemma first_place : forall s a x b o p, plain s -> typed s x -> Forall (fun y => ~ typed s y) a ->
  hd_error (kid_places s (a ++ x :: b) o p) = Some (tree_at x (o + blen (file_bytes a)) :: p).
Proof. intros. rewrite places_app, places_none, places_cons by assumption. reflexivity. Qed.
Lemma only_place : forall s a x b o p, plain s -> typed s x -> Forall (fun y => ~ typed s y) (a ++ b) ->
  kid_places s (a ++ x :: b) o p = [tree_at x (o + blen (file_bytes a)) :: p].
Proof. intros s a x b o p P T F. apply Forall_app in F. destruct F. rewrite places_app, places_none, places_cons, places_none by assumption. reflexivity. Qed.

(** ** Walks *)
Lemma skipn_more : forall {A} n m (l : list A), skipn (m + n) l = skipn m (skipn n l).
Proof.
  intros A n m l. revert l. induction n as [|n IH]; intros l; [rewrite Nat.add_0_r; reflexivity|]. rewrite Nat.add_succ_r. destruct l as [|x l]; [cbn; rewrite skipn_nil; reflexivity|]. apply IH.
Qed.
Lemma walk_up : forall path p q, In q (walk p path) -> skipn (List.length path) q = p.
Proof.
  induction path as [|t path IH]; intros p q H.
  - destruct H as [<-|[]]. reflexivity.
  - cbn [walk] in H. apply in_flat_map in H. destruct H as (m & I & J). apply IH in J. destruct p as [|b r]; [destruct I|]. cbn [matching_children] in I. apply in_map_iff in I. destruct I as (k & <- & _).
    change (List.length (t :: path)) with (1 + List.length path)%nat. rewrite skipn_more, J. reflexivity.
Qed.
Lemma hd_flat : forall {A B} (f : A -> list B) a x b z r, (forall y, In y a -> f y = []) -> f x = z :: r -> hd_error (flat_map f (a ++ x :: b)) = Some z.
Proof.
  intros A B f a x b z r H E. rewrite flat_map_app. replace (flat_map f a) with (@nil B); [cbn [app flat_map]; rewrite E; reflexivity|].
  symmetry. induction a as [|y a IH]; [reflexivity|]. cbn [flat_map]. rewrite H by (left; reflexivity). apply IH. intros w W. apply H. right. exact W.
Qed.
Lemma in_places : forall s l o p q, plain s -> In q (kid_places s l o p) -> exists x o', In x l /\ typed s x /\ q = tree_at x o' :: p.
Proof.
  intros s l o p q P H. unfold kid_places in H. apply in_map_iff in H. destruct H as (k & <- & H). apply filter_In in H. destruct H as [I T].
  destruct (in_trees _ _ _ I) as (x & o' & X & ->). exists x, o'. split; [exact X|]. split; [exact (proj1 (plain_type s x o' P) T)|reflexivity].
Qed.
Lemma places_in : forall s l o p x, plain s -> In x l -> typed s x -> exists o', In (tree_at x o' :: p) (kid_places s l o p).
Proof.
  intros s l o p x P I T. destruct (trees_in l o x I) as (o' & H). exists o'. unfold kid_places. apply in_map_iff. exists (tree_at x o'). split; [reflexivity|].
  apply filter_In. split; [exact H|]. exact (proj2 (plain_type s x o' P) T).
Qed.
Lemma plain_names : plain "moov" /\ plain "trak" /\ plain "mdia" /\ plain "minf" /\ plain "mdhd" /\ plain "tkhd" /\ plain "vmhd" /\ plain "smhd" /\ plain "nmhd".
Proof. repeat split; reflexivity. Qed.
Definition rest_path (header : string) : list bytes := map bstr ["mdia"; "minf"; header]%string.
Lemma track_walk : forall header n o anc, plain header -> typed "trak" n -> walk (tree_at n o :: anc) (rest_path header) <> [] -> track_with header n.
Proof.
  intros header n o anc P T H. destruct (walk (tree_at n o :: anc) (rest_path header)) as [|q r] eqn:E; [contradiction|].
  assert (I : In q (walk (tree_at n o :: anc) (rest_path header))) by (rewrite E; left; reflexivity). clear E H.
  unfold rest_path in I. cbn [map walk] in I. destruct plain_names as (_ & _ & Pd & Pi & _).
  apply in_flat_map in I. destruct I as (d & D & I). rewrite kids_are in D. apply in_places in D; [|exact Pd]. destruct D as (dn & od & D & Td & ->).
  apply in_flat_map in I. destruct I as (i & J & I). rewrite kids_are in J. apply in_places in J; [|exact Pi]. destruct J as (jn & oj & J & Tj & ->).
  apply in_flat_map in I. destruct I as (h & K & I). rewrite kids_are in K. apply in_places in K; [|exact P]. destruct K as (hn & oh & K & Th & ->).
  split; [exact T|]. exists dn, jn, hn. auto 10.
Qed.
Lemma walk_track : forall header d i h o anc, plain header -> In i (n_kids d) -> typed "minf" i -> In h (n_kids i) -> typed header h ->
  walk (tree_at d o :: anc) (map bstr ["minf"; header]%string) <> [].
Proof.
  intros header d i h o anc P I Ti H Th. destruct plain_names as (_ & _ & _ & Pi & _).
  destruct (places_in "minf" (n_kids d) (o + 8 + blen (n_head d)) (tree_at d o :: anc) i Pi I Ti) as (oi & Ii).
  destruct (places_in header (n_kids i) (oi + 8 + blen (n_head i)) (tree_at i oi :: tree_at d o :: anc) h P H Th) as (oh & Ih).
  intros E. cut (In (tree_at h oh :: tree_at i oi :: tree_at d o :: anc) (walk (tree_at d o :: anc) (map bstr ["minf"; header]%string))); [rewrite E; intros []|]. cbn [map walk].
  apply in_flat_map. exists (tree_at i oi :: tree_at d o :: anc). split; [rewrite kids_are; exact Ii|].
  apply in_flat_map. exists (tree_at h oh :: tree_at i oi :: tree_at d o :: anc). split; [rewrite kids_are; exact Ih|]. left. reflexivity.
Qed.

(** ** Positions *)
Definition placed_at (data : bytes) (o : Z) (n : node) : Prop := exists pre post, data = pre ++ node_bytes n ++ post /\ blen pre = o.
Lemma placed_root : forall a x b, placed_at (file_bytes (a ++ x :: b)) (0 + blen (file_bytes a)) x.
Proof. intros. exists (file_bytes a), (file_bytes b). rewrite file_app, file_cons. split; [reflexivity|lia]. Qed.
Lemma placed_kid : forall data o n a x b, placed_at data o n -> blen (n_type n) = 4 -> n_kids n = a ++ x :: b -> placed_at data (o + 8 + blen (n_head n) + blen (file_bytes a)) x.
Proof.
  intros data o [t h ks] a x b (pre & post & D & O) L K. cbn [n_type n_head n_kids] in *. subst ks. rewrite node_bytes_eq, file_app, file_cons in D.
  set (z := 8 + blen (h ++ file_bytes a ++ node_bytes x ++ file_bytes b)) in D.
  exists (pre ++ be32 z ++ t ++ h ++ file_bytes a), (file_bytes b ++ post). split; [rewrite D, <- !app_assoc; reflexivity|].
  rewrite !blen_app, be32_len. lia.
Qed.
Lemma readable_mid : forall data a x b o before, all_readable data (a ++ x :: b) o before -> exists before', readable data x (o + blen (file_bytes a)) before'.
Proof.
  intros data. induction a as [|y a IH]; intros x b o before H; cbn [app all_readable] in H; destruct H as [H1 H2].
  - exists before. change (blen (file_bytes [])) with 0. rewrite Z.add_0_r. exact H1.
  - destruct (IH _ _ _ _ H2) as (before' & R). exists before'. rewrite file_cons, blen_app. change (blen (node_bytes y)) with (node_size y). rewrite Z.add_assoc. exact R.
Qed.
Lemma readable_kids : forall data n o before, readable data n o before -> all_readable data (n_kids n) (o + 8 + blen (n_head n)) [].
Proof. intros data [t h ks] o before H. rewrite readable_eq in H. apply H. Qed.
Lemma readable_self : forall data n o before, readable data n o before -> constructor data (named (n_type n)) o (node_size n) before = Ok (named (n_type n)).
Proof. intros data [t h ks] o before H. rewrite readable_eq in H. apply H. Qed.
Lemma header_slice : forall data o n v flags times z rest, placed_at data o n -> blen (n_type n) = 4 -> n_kids n = [] -> n_head n = v :: flags ++ times ++ be32 z ++ rest -> blen flags = 3 ->
  byte_at 0 (bslice (o + 8) (o + 9) data) = Ok v /\ bslice (o + 12) (o + node_size n) data = times ++ be32 z ++ rest.
Proof.
  intros data o [t h ks] v flags times z rest (pre & post & D & O) L K H F. cbn [n_type n_head n_kids] in *. subst ks h.
  pose proof (node_size_eq t (v :: flags ++ times ++ be32 z ++ rest) [] L) as Sz. change (blen (file_bytes [])) with 0 in Sz.
  rewrite node_bytes_eq in D. change (file_bytes []) with (@nil Z) in D. rewrite app_nil_r in D.
  set (y := be32 _) in D. assert (Y : blen y = 4) by reflexivity.
  assert (C : forall b, blen (v :: b) = 1 + blen b) by (intros b; change (v :: b) with ([v] ++ b); rewrite blen_app; reflexivity).
  rewrite C, !blen_app, be32_len in Sz.
  assert (D1 : data = (pre ++ y ++ t) ++ [v] ++ (flags ++ times ++ be32 z ++ rest ++ post)) by (rewrite D, <- !app_assoc; cbn [app]; rewrite <- !app_assoc; reflexivity).
  assert (D2 : data = (pre ++ y ++ t ++ [v] ++ flags) ++ (times ++ be32 z ++ rest) ++ post) by (rewrite D, <- !app_assoc; cbn [app]; rewrite <- !app_assoc; reflexivity).
  split.
  - rewrite D1. rewrite slice_at; [reflexivity| |]; rewrite !blen_app, Y; change (blen [v]) with 1; lia.
  - rewrite D2. rewrite slice_at; [reflexivity| |]; rewrite !blen_app, ?be32_len, Y; change (blen [v]) with 1; lia.
Qed.
Lemma tkhd_track : forall data o n z r, placed_at data o n -> blen (n_type n) = 4 -> n_kids n = [] -> header_says n z -> tkhd_at data o (node_size n) = Ok r -> fst (fst (fst r)) = z.
Proof.
  intros data o n z r P L K (v & flags & times & rest & H & F & Z & V) R. destruct (header_slice _ _ _ _ _ _ _ _ P L K H F) as [B S].
  unfold tkhd_at in R. apply bind_ok in R. destruct R as ([v' f'] & Fu & R). unfold full_at in Fu. rewrite B in Fu. cbn [bind] in Fu. apply bind_ok in Fu. destruct Fu as (? & _ & Fu). inversion Fu; subst v' f'. clear Fu.
  cbv zeta in R. rewrite S in R.
  assert (W : exists t1 t2, times = t1 ++ t2 /\ blen t1 = (if v =? 0 then 4 else 8) /\ blen t2 = (if v =? 0 then 4 else 8)).
  { destruct V as [[-> V]|[-> V]]; cbn [Z.eqb].
    - exists (btake 4 times), (bdrop 4 times). rewrite btake_drop. pose proof (btake_drop 4 times) as E. split; [reflexivity|]. rewrite blen_btake, blen_bdrop; lia.
    - exists (btake 8 times), (bdrop 8 times). rewrite btake_drop. split; [reflexivity|]. change (1 =? 0) with false. cbv iota. rewrite blen_btake, blen_bdrop; lia. }
  destruct W as (t1 & t2 & -> & L1 & L2). rewrite <- app_assoc in R. set (w := if v =? 0 then 4 else 8) in *. assert (0 < w) by (subst w; destruct (v =? 0); lia).
  rewrite send_f in R by assumption. cbn [bind] in R. rewrite send_f in R by assumption. cbn [bind] in R. rewrite send_f in R by (reflexivity || lia). cbn [bind] in R.
  rewrite be32_val in R by exact Z.
  repeat (apply bind_ok in R; let x := fresh in destruct R as (x & _ & R); lazymatch type of x with (_ * _)%type => destruct x | _ => idtac end). inversion R; subst. reflexivity.
Qed.
Lemma mdhd_scale : forall data o n z r, placed_at data o n -> blen (n_type n) = 4 -> n_kids n = [] -> header_says n z -> mdhd_at data o (node_size n) = Ok r -> md_timescale r = z.
Proof.
  intros data o n z r P L K (v & flags & times & rest & H & F & Z & V) R. destruct (header_slice _ _ _ _ _ _ _ _ P L K H F) as [B S].
  unfold mdhd_at in R. apply bind_ok in R. destruct R as ([v' f'] & Fu & R). unfold full_at in Fu. rewrite B in Fu. cbn [bind] in Fu. apply bind_ok in Fu. destruct Fu as (? & _ & Fu). inversion Fu; subst v' f'. clear Fu.
  cbv zeta in R. rewrite S in R. set (w := if v =? 0 then 4 else 8) in *. assert (W : blen times = w + w) by (subst w; destruct V as [[-> V]|[-> V]]; exact V). 
  apply bind_ok in R. destruct R as ([c i1] & R1 & R). unfold send_u in R1. destruct (0 <? _) in R1; [|discriminate]. destruct (0 + w <=? _) in R1; [|discriminate]. inversion R1; subst i1. clear R1.
  apply bind_ok in R. destruct R as ([m i2] & R2 & R). unfold send_u in R2. destruct (_ <? _) in R2; [|discriminate]. destruct (_ <=? _) in R2; [|discriminate]. inversion R2; subst i2. clear R2.
  apply bind_ok in R. destruct R as ([ts i3] & R3 & R). unfold send_u in R3. destruct (_ <? _) in R3; [|discriminate]. destruct (_ <=? _) in R3; [|discriminate]. inversion R3; subst ts i3. clear R3.
  rewrite (slice_at times (be32 z) rest) in R by (rewrite ?be32_len; lia). rewrite be32_val in R by exact Z.
  repeat (apply bind_ok in R; let x := fresh in destruct R as (x & _ & R); lazymatch type of x with (_ * _)%type => destruct x | _ => idtac end). inversion R; subst. reflexivity.
Qed.

(** ** The information about a track *)
Lemma header_kids : forall n s, well_made n -> typed s n -> (forall k, ~ In (bstr s, k) holders) -> n_kids n = [] /\ blen (n_type n) = 4.
Proof.
  intros n s W T H. destruct W as [t p L A R H2 S|t k head kids H2 Hh K F S]; cbn [n_kids n_type]; [split; [reflexivity|exact L]|].
  unfold typed in T. cbn [n_type] in T. subst t. exfalso. exact (H _ H2).
Qed.
Lemma made_kids : forall n, well_made n -> Forall well_made (n_kids n) /\ blen (n_type n) = 4.
Proof.
  intros n W. destruct W as [t p L A R H2 S|t k head kids H2 Hh K F S]; cbn [n_kids n_type]; [split; [constructor|exact L]|]. split; [exact F|]. apply (holder_types t k H2).
Qed.
Ltac not_holder := let k := fresh in let H := fresh in intros k H; unfold holders in H; cbn [map app In] in H; repeat (destruct H as [H|H]; [discriminate|]); exact H.
Lemma tkhd_leaf : forall k, ~ In (bstr "tkhd", k) holders.
Proof. not_holder. Qed.
Lemma mdhd_leaf : forall k, ~ In (bstr "mdhd", k) holders.
Proof. not_holder. Qed.
Lemma forall_mid : forall {A} (P : A -> Prop) a x b, Forall P (a ++ x :: b) -> P x.
Proof. intros A P a x b H. rewrite Forall_forall in H. apply H. apply in_or_app. right. left. reflexivity. Qed.
Lemma file_parsed : forall l, l <> [] -> Forall well_made l -> file_readable l -> parse_file (file_bytes l) = Ok (file_tree l).
Proof.
  intros l N W R. unfold parse_file. rewrite (parse_made _ _ [] [] l); [reflexivity|rewrite app_nil_r; reflexivity|reflexivity|exact N|exact W|reflexivity|lia|lia|exact R].
Qed.
Lemma walk_cons : forall p t r, walk p (t :: r) = flat_map (fun q => walk q r) (matching_children p t).
Proof. reflexivity. Qed.
Lemma first_of_kind : forall header l tk md track scale, plain header -> Forall well_made l -> file_readable l -> first_track header l tk md ->
  header_says tk track -> header_says md scale -> forall tested, track_info header tested (file_bytes l) = Ok (Some track, scale).
Proof.
  intros header l tk md track scale P W R (moov & trak & mdia & (a1 & b1 & E1 & T1 & F1) & (a2 & b2 & E2 & T2 & F2) & (a3 & b3 & E3 & T3 & F3) & (a4 & b4 & E4 & T4 & F4) & (a5 & b5 & E5 & T5 & F5)) HT HM tested.
  destruct plain_names as (Pm & Pt & Pd & Pi & Pmd & Ptk & _).
  assert (N : l <> []) by (rewrite E1; destruct a1; discriminate).
  unfold track_info. rewrite file_parsed by assumption. cbn [bind].
  (* the nodes *)
  assert (W1 : well_made moov) by (rewrite E1 in W; exact (forall_mid _ _ _ _ W)). destruct (made_kids _ W1) as [K1 L1].
  assert (W2 : well_made trak) by (rewrite E2 in K1; exact (forall_mid _ _ _ _ K1)). destruct (made_kids _ W2) as [K2 L2].
  assert (W3 : well_made mdia) by (rewrite E3 in K2; exact (forall_mid _ _ _ _ K2)). destruct (made_kids _ W3) as [K3 L3].
  assert (W4 : well_made tk) by (rewrite E4 in K2; exact (forall_mid _ _ _ _ K2)). destruct (header_kids _ _ W4 T4 tkhd_leaf) as [K4 L4].
  assert (W5 : well_made md) by (rewrite E5 in K3; exact (forall_mid _ _ _ _ K3)). destruct (header_kids _ _ W5 T5 mdhd_leaf) as [K5 L5].
  set (o1 := 0 + blen (file_bytes a1)). set (o2 := o1 + 8 + blen (n_head moov) + blen (file_bytes a2)). set (o3 := o2 + 8 + blen (n_head trak) + blen (file_bytes a3)).
  set (o4 := o2 + 8 + blen (n_head trak) + blen (file_bytes a4)). set (o5 := o3 + 8 + blen (n_head mdia) + blen (file_bytes a5)).
  assert (D1 : placed_at (file_bytes l) o1 moov) by (rewrite E1; apply placed_root).
  assert (D2 : placed_at (file_bytes l) o2 trak) by (eapply placed_kid; eassumption).
  assert (D3 : placed_at (file_bytes l) o3 mdia) by (eapply placed_kid; eassumption).
  assert (D4 : placed_at (file_bytes l) o4 tk) by (eapply placed_kid; eassumption).
  assert (D5 : placed_at (file_bytes l) o5 md) by (eapply placed_kid; eassumption).
  unfold file_readable in R. set (data := file_bytes l) in *.
  rewrite E1 in R. destruct (readable_mid _ _ _ _ _ _ R) as (s1 & R1). apply readable_kids in R1. rewrite E2 in R1. destruct (readable_mid _ _ _ _ _ _ R1) as (s2 & R2). apply readable_kids in R2.
  pose proof R2 as R2'. rewrite E3 in R2. destruct (readable_mid _ _ _ _ _ _ R2) as (s3 & R3). apply readable_kids in R3. rewrite E5 in R3. destruct (readable_mid _ _ _ _ _ _ R3) as (s5 & R5). apply readable_self in R5.
  rewrite E4 in R2'. destruct (readable_mid _ _ _ _ _ _ R2') as (s4 & R4). apply readable_self in R4.
  fold o1 o2 o3 o4 o5 in R4, R5.
  (* the path *)
  set (pm := tree_at moov o1 :: [file_tree l]). set (pt := tree_at trak o2 :: pm). set (pd := tree_at mdia o3 :: pt).
  assert (H : exists q, hd_error (walk [file_tree l] (map bstr ["moov"; "trak"; "mdia"; "minf"; header]%string)) = Some q /\ In q (walk pd (map bstr ["minf"; header]%string))).
  { cbn [map]. assert (M : forall p, kid_places "moov" l 0 p = [tree_at moov o1 :: p]) by (intros p; rewrite E1; apply only_place; assumption).
    rewrite walk_cons, root_kids, M. fold pm. cbn [flat_map]. rewrite app_nil_r.
    rewrite walk_cons. unfold pm at 1. rewrite kids_are. fold pm. rewrite E2, places_app, places_cons by (apply Pt || apply T2). fold o2. fold pt.
    assert (Wt : walk pt [bstr "mdia"; bstr "minf"; bstr header] = walk pd (map bstr ["minf"; header]%string)).
    { rewrite walk_cons. unfold pt at 1. rewrite kids_are. fold pt. rewrite E3, only_place by assumption. fold o3. fold pd. cbn [flat_map]. rewrite app_nil_r. reflexivity. }
    destruct T2 as [T2 (d & i & h & Id & Td & Ii & Ti & Ih & Th)].
    assert (d = mdia).
    { rewrite E3 in Id. apply in_app_or in Id. destruct Id as [Id|[Id|Id]]; [|auto|]; rewrite Forall_forall in F3; exfalso; refine (F3 d _ Td); apply in_or_app; auto. }
    subst d. pose proof (walk_track header mdia i h o3 pt P Ii Ti Ih Th) as Ne. fold pd in Ne. destruct (walk pd (map bstr ["minf"; header]%string)) as [|q r] eqn:Q; [contradiction|].
    exists q. split; [|change (In q (walk pd (map bstr ["minf"; header]%string))); rewrite Q; left; reflexivity]. eapply hd_flat; [|exact Wt]. intros y Y. apply in_places in Y; [|exact Pt]. destruct Y as (x & ox & X & Tx & ->).
    destruct (walk (tree_at x ox :: pm) [bstr "mdia"; bstr "minf"; bstr header]) eqn:Q2; [reflexivity|]. rewrite Forall_forall in F2. exfalso. apply (F2 x X). eapply track_walk; [exact P|exact Tx|].
    unfold rest_path. cbn [map]. rewrite Q2. discriminate. }
  destruct H as (q & H & Q). rewrite find_first_walk by discriminate. rewrite H. cbn [bind]. unfold track_of.
  assert (U2 : up 2 q = pd) by (apply (walk_up _ _ _ Q)).
  assert (U3 : up 3 q = pt) by (unfold up in *; change 3%nat with (1 + 2)%nat; rewrite skipn_more, U2; reflexivity).
  rewrite U2, U3. rewrite !find_first_walk by discriminate. cbn [bind].
  assert (X5 : hd_error (walk pd [bstr "mdhd"]) = Some (tree_at md o5 :: pd)).
  { rewrite walk_cons. change (fun q => walk q []) with (fun q : place => [q]). rewrite flat_map_one. unfold pd at 1. rewrite kids_are. fold pd. rewrite E5, first_place by assumption. reflexivity. }
  assert (X4 : hd_error (walk pt [bstr "tkhd"]) = Some (tree_at tk o4 :: pt)).
  { rewrite walk_cons. change (fun q => walk q []) with (fun q : place => [q]). rewrite flat_map_one. unfold pt at 1. rewrite kids_are. fold pt. rewrite E4, first_place by assumption. reflexivity. }
  rewrite X5, X4. rewrite !tree_offset, !tree_size.
  replace (named (n_type md)) with (bstr "mdhd") in R5 by (rewrite T5; reflexivity). replace (named (n_type tk)) with (bstr "tkhd") in R4 by (rewrite T4; reflexivity).
  change (constructor data (bstr "mdhd") o5 (node_size md) s5) with (only_errors (bstr "mdhd") (mdhd_at data o5 (node_size md))) in R5.
  change (constructor data (bstr "tkhd") o4 (node_size tk) s4) with (only_errors (bstr "tkhd") (tkhd_at data o4 (node_size tk))) in R4.
  unfold only_errors in R4, R5. apply bind_ok in R5. destruct R5 as (m & R5 & _). apply bind_ok in R4. destruct R4 as (k & R4 & _). rewrite R5, R4. cbn [bind].
  pose proof (mdhd_scale _ _ _ _ _ D5 L5 K5 HM R5) as V5. pose proof (tkhd_track _ _ _ _ _ D4 L4 K4 HT R4) as V4. destruct k as [[[k1 k2] k3] k4]. cbn [fst] in V4. subst. reflexivity.
Qed.
Lemma none_of_kind : forall header l tested, plain header -> l <> [] -> Forall well_made l -> file_readable l -> no_track header l ->
  track_info header tested (file_bytes l) = if tested then Ok (None, 0) else Err "AttributeError".
Proof.
  intros header l tested P N W R H. destruct plain_names as (Pm & Pt & Pd & Pi & _). unfold track_info. rewrite file_parsed by assumption. cbn [bind]. rewrite find_first_walk by discriminate. cbn [bind].
  destruct (walk [file_tree l] (map bstr ["moov"; "trak"; "mdia"; "minf"; header]%string)) as [|q r] eqn:E; [reflexivity|]. exfalso.
  assert (I : In q (walk [file_tree l] (map bstr ["moov"; "trak"; "mdia"; "minf"; header]%string))) by (rewrite E; left; reflexivity). clear E.
  cbn [map] in I. rewrite walk_cons, root_kids in I. apply in_flat_map in I. destruct I as (m & M & I). apply in_places in M; [|exact Pm]. destruct M as (moov & o1 & M & Tm & ->).
  rewrite walk_cons, kids_are in I. apply in_flat_map in I. destruct I as (t & T & I). apply in_places in T; [|exact Pt]. destruct T as (trak & o2 & T & Tt & ->).
  apply (H moov trak M Tm T). eapply track_walk; [exact P|exact Tt|]. unfold rest_path. cbn [map]. intros E. rewrite E in I. destruct I.
Qed.
