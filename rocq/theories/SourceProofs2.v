(** Paths, directories and the files of a representation. *)
From Coq Require Import ZifyBool ZifyNat.
From Verif Require Import Base BaseProofs BytesModel StrModel ConfigModel TimeModel Mp4Model InitModel MpdModel VodModel SourceModel XlinkProofs Mpd2Spec
  TimeProofs HttpProofs VodProofs2 SourceSpec SourceProofs.
Local Open Scope string_scope.
Open Scope Z_scope.

(** ** Paths *)
Lemma rsplit_none : forall t, no_slash t -> rsplit_slash t = None.
Proof.
  intros t. induction t as [|a t IH]; intros N; [reflexivity|]. unfold no_slash in *. cbn [list_ascii_of_string In] in N.
  cbn [rsplit_slash]. rewrite IH by tauto. destruct (Ascii.eqb_spec a "/"); [tauto|reflexivity].
Qed.
Lemma rsplit_at : forall h t, no_slash t -> rsplit_slash (h ++ "/" ++ t) = Some (h, t).
Proof.
  intros h t N. induction h as [|a h IH].
  - cbn [append rsplit_slash]. rewrite rsplit_none by exact N. reflexivity.
  - cbn [append rsplit_slash] in *. rewrite IH. reflexivity.
Qed.
Lemma rstrip_at : forall d, directory d -> rstrip_slash (d ++ "/") = d.
Proof.
  intros d. induction d as [|a d IH]; intros (N & E); [congruence|]. cbn [append rstrip_slash].
  destruct d as [|b d].
  - cbn. destruct (Ascii.eqb_spec a "/") as [->|]; [|reflexivity]. exfalso. apply (E ""). reflexivity.
  - rewrite IH.
    2:{ split; [discriminate|]. intros h H. apply (E (String a h)). cbn [append]. rewrite H. reflexivity. }
    rewrite andb_false_r. reflexivity.
Qed.
Lemma path_split_at : forall d n, directory d -> no_slash n -> path_split (d ++ "/" ++ n) = (d, n).
Proof.
  intros d n D N. unfold path_split. rewrite rsplit_at by exact N. rewrite rstrip_at by exact D.
  destruct (String.eqb_spec d ""); [destruct D; contradiction|reflexivity].
Qed.
Lemma last_char : forall s, s <> "" -> exists h, s = h ++ drop (String.length s - 1) s.
Proof.
  intros s. induction s as [|a s IH]; intros N; [congruence|]. destruct s as [|b s].
  - exists "". reflexivity.
  - destruct (IH ltac:(discriminate)) as (h & H). exists (String a h). cbn [append]. f_equal.
    replace (String.length (String a (String b s)) - 1)%nat with (S (String.length (String b s) - 1))%nat by (cbn [String.length]; lia).
    cbn [drop]. exact H.
Qed.
Lemma path_join_at : forall base rel, directory base -> relative rel -> path_join base rel = base ++ "/" ++ rel.
Proof.
  intros base rel (N & E) R. unfold path_join. destruct (starts_with "/" rel) eqn:S.
  - apply starts_exists in S. destruct S as (r & S). elim (R r S).
  - destruct (String.eqb_spec base ""); [contradiction|]. cbn [orb].
    destruct (String.eqb_spec (drop (String.length base - 1) base) "/") as [L|]; [|reflexivity].
    destruct (last_char base N) as (h & H). rewrite L in H. elim (E h H).
Qed.
Lemma read_at : forall fs d n l, contents fs d l -> no_slash n -> read_file fs (d ++ "/" ++ n) = assoc n l.
Proof. intros fs d n l (D & F & _) N. unfold read_file. rewrite path_split_at by assumption. rewrite F. reflexivity. Qed.
Lemma base_path_at : forall base file, directory base -> no_slash file -> base_path (base ++ "/" ++ file) = base.
Proof. intros base file D N. unfold base_path. rewrite path_split_at by assumption. reflexivity. Qed.
Lemma split_all_cut : forall c a b, split_all c (a ++ String c b) = (split_all c a ++ split_all c b)%list.
Proof.
  intros c a b. induction a as [|x a IH]; cbn [append split_all]; [rewrite Ascii.eqb_refl; reflexivity|].
  destruct (Ascii.eqb x c); [rewrite IH; reflexivity|]. rewrite IH.
  destruct (split_all c a) eqn:E; [elim (split_nonempty c a E)|reflexivity].
Qed.
Lemma base_name_at : forall parent name file, no_slash name -> no_slash file -> base_name (parent ++ "/" ++ name ++ "/" ++ file) = name.
Proof.
  intros parent name file Nn Nf. unfold base_name.
  change (parent ++ "/" ++ name ++ "/" ++ file) with (parent ++ String "/" (name ++ String "/" file)).
  rewrite split_all_cut, split_all_cut, (Mpd2Proofs.split_no_slash name Nn), (Mpd2Proofs.split_no_slash file Nf).
  set (p := split_all "/" parent). rewrite app_length. cbn [List.length List.app].
  destruct (Nat.leb_spec 2 (List.length p + 2)); [|lia]. rewrite app_nth2 by lia.
  replace (List.length p + 2 - 2 - List.length p)%nat with 0%nat by lia. reflexivity.
Qed.

(** ** Names of segments *)
Lemma digits_all : forall s, digits s <-> s <> "" /\ all_digits s = true.
Proof.
  intros s. unfold digits.
  assert (G : (forall c, In c (list_ascii_of_string s) -> (48 <= nat_of_ascii c <= 57)%nat) <-> all_digits s = true); [|tauto].
  induction s as [|a s IH]; [split; [reflexivity|intros _ c []]|]. cbn [list_ascii_of_string In all_digits].
  assert (V : (48 <= nat_of_ascii a <= 57)%nat <-> exists d, digit_val a = Some d).
  { unfold digit_val. destruct ((48 <=? Z.of_nat (nat_of_ascii a)) && (Z.of_nat (nat_of_ascii a) <=? 57)) eqn:E.
    - split; [eauto|lia].
    - split; [lia|intros (d & D); discriminate]. }
  destruct (digit_val a) as [d|].
  - rewrite <- IH. split; [auto|]. intros H c [<- | I]; [apply V; eauto|auto].
  - split; [|discriminate]. intros H. destruct (proj1 V (H a (or_introl eq_refl))). discriminate.
Qed.
Lemma is_digit_val : forall a, is_digit a = match digit_val a with Some _ => true | None => false end.
Proof. intros a. unfold is_digit, digit_val. destruct (_ && _); reflexivity. Qed.
Lemma digits_in_take : forall s j, (j <= digits_in s)%nat -> all_digits (take j s) = true /\ s = take j s ++ drop j s /\ (j <> 0%nat -> take j s <> "").
Proof.
  intros s. induction s as [|a s IH]; intros j H.
  - cbn [digits_in] in H. replace j with 0%nat by lia. cbn. repeat split; congruence.
  - destruct j as [|j]; [cbn; repeat split; congruence|]. cbn [digits_in] in H. rewrite is_digit_val in H.
    destruct (digit_val a) eqn:E; [|lia]. destruct (IH j ltac:(lia)) as (A & B & _). cbn [take drop all_digits append]. rewrite E.
    split; [exact A|]. split; [f_equal; exact B|discriminate].
Qed.
Lemma match_digits_is : forall j post s ds, (j <= digits_in s)%nat -> match_digits j post s = Some ds ->
  digits ds /\ exists rest, s = ds ++ post ++ rest.
Proof.
  intros j post s ds. induction j as [|j IH]; intros H M; [discriminate|]. cbn [match_digits] in M.
  destruct (starts_with post (drop (S j) s)) eqn:S; [|apply IH; [lia|exact M]].
  assert (ds = take (Datatypes.S j) s) by congruence. subst ds. destruct (digits_in_take s (Datatypes.S j) H) as (A & B & C).
  split; [apply digits_all; split; [apply C; discriminate|exact A]|]. apply starts_exists in S. destruct S as (r & S). exists r. rewrite <- S. exact B.
Qed.
Lemma digits_in_app : forall ds r, all_digits ds = true -> (String.length ds <= digits_in (ds ++ r))%nat.
Proof.
  intros ds r. induction ds as [|a ds IH]; intros H; [cbn; lia|]. cbn [all_digits append digits_in String.length] in *. rewrite is_digit_val.
  destruct (digit_val a); [|discriminate]. specialize (IH H). lia.
Qed.
Lemma match_digits_at : forall j ds post, all_digits ds = true -> ds <> "" -> (String.length ds <= j)%nat ->
  match_digits j post (ds ++ post) = Some ds.
Proof.
  intros j ds post A N. induction j as [|j IH]; intros H; [destruct ds; [congruence|cbn in H; lia]|]. cbn [match_digits].
  destruct (Nat.eq_dec (String.length ds) (S j)) as [E|E].
  - rewrite <- E. rewrite drop_app_len, take_app_len. rewrite <- (sapp_nil post) at 2. rewrite starts_self. reflexivity.
  - destruct (starts_with post (drop (S j) (ds ++ post))) eqn:SW; [|apply IH; lia].
    apply starts_exists in SW. destruct SW as (r & SW).
    assert (G : forall k s, (String.length (drop k s) <= String.length s - k)%nat).
    { intros k. induction k as [|k IHk]; intros s; [cbn; lia|]. destruct s as [|a s]; [cbn; lia|]. cbn [drop String.length]. specialize (IHk s). lia. }
    specialize (G (S j) (ds ++ post)). rewrite SW, !len_app in G.
    assert (P : String.length post = 0%nat) by lia. destruct post; [|discriminate]. rewrite sapp_nil. f_equal.
    assert (T : forall k s, (String.length s <= k)%nat -> take k s = s).
    { intros k. induction k as [|k IHk]; intros s L; [destruct s; [reflexivity|cbn in L; lia]|]. destruct s as [|a s]; [reflexivity|].
      cbn [take]. f_equal. apply IHk. cbn in L. lia. }
    apply T. lia.
Qed.
Lemma match_name_is : forall pre post f ds, match_name pre post f = Some ds -> digits ds /\ exists rest, f = pre ++ ds ++ post ++ rest.
Proof.
  intros pre post f ds M. unfold match_name in M. destruct (starts_with pre f) eqn:SW; [|discriminate].
  apply starts_exists in SW. destruct SW as (b & ->). rewrite drop_app_len in M. apply match_digits_is in M; [|lia].
  destruct M as (D & rest & ->). split; [exact D|]. exists rest. reflexivity.
Qed.
Lemma match_name_at : forall pre post ds, digits ds -> match_name pre post (pre ++ ds ++ post) = Some ds.
Proof.
  intros pre post ds D. apply digits_all in D. destruct D as (N & A). unfold match_name. rewrite starts_self, drop_app_len.
  apply match_digits_at; [exact A|exact N|]. apply digits_in_app. exact A.
Qed.
Lemma print_digits : forall n, 0 <= n -> digits (print_Z n).
Proof. intros n H. apply digits_all. destruct (print_Z_digits n H) as (A & _ & C). split; assumption. Qed.

(** The files found, in the order of the listing. *)
Fixpoint found (pre post : string) (l : list (string * bytes)) : list (Z * bytes) :=
  match l with
  | [] => []
  | (f, b) :: r => match match_name pre post f with
                   | Some ds => match py_int ds with Ok n => (n, b) :: found pre post r | Err _ => found pre post r end
                   | None => found pre post r
                   end
  end.
Definition named_by (pre post : string) (l : list (string * bytes)) : Prop :=
  forall f b ds, In (f, b) l -> match_name pre post f = Some ds -> exists n, 0 <= n /\ ds = print_Z n /\ f = pre ++ print_Z n ++ post.
Lemma tidy_named : forall pre post l, tidy pre post l -> named_by pre post l.
Proof.
  intros pre post l T f b ds I M. destruct (match_name_is _ _ _ _ M) as (D & rest & ->).
  destruct (T ds rest b D I) as (-> & n & P & ->). exists n. rewrite sapp_nil. auto.
Qed.
Lemma found_numbers : forall pre post l, named_by pre post l -> match_files pre post l = Ok (map fst (found pre post l)).
Proof.
  intros pre post l. induction l as [|(f, b) l IH]; intros H; [reflexivity|].
  assert (Hl : named_by pre post l) by (intros f' b' ds I; apply (H f' b' ds); right; exact I).
  cbn [match_files found]. destruct (match_name pre post f) as [ds|] eqn:M; [|auto].
  destruct (H f b ds (or_introl eq_refl) M) as (n & P & -> & _). rewrite py_int_print. cbn [bind]. rewrite (IH Hl). reflexivity.
Qed.
Lemma found_in : forall pre post l n b, named_by pre post l -> (In (n, b) (found pre post l) <-> 0 <= n /\ In (pre ++ print_Z n ++ post, b) l).
Proof.
  intros pre post l n b. induction l as [|(f, x) l IH]; intros H; [cbn; tauto|].
  assert (Hl : named_by pre post l) by (intros f' b' ds I; apply (H f' b' ds); right; exact I). specialize (IH Hl).
  cbn [found In]. destruct (match_name pre post f) as [ds|] eqn:M.
  - destruct (H f x ds (or_introl eq_refl) M) as (k & P & -> & ->). rewrite py_int_print. cbn [In]. rewrite IH. split.
    + intros [E | (A & B)]; [injection E as -> ->; auto|auto].
    + intros (A & [E | B]); [|auto]. left. assert (E1 := f_equal fst E). assert (E2 := f_equal snd E). cbn in E1, E2. subst x. f_equal.
      assert (G : forall p a b, p ++ a = p ++ b -> a = b). { intros p. induction p as [|c p IHp]; intros u v Q; [exact Q|]. cbn in Q. injection Q as Q. auto. }
      apply G in E1. assert (M2 : match_name "" post (print_Z k ++ post) = match_name "" post (print_Z n ++ post)) by (rewrite E1; reflexivity).
      assert (Mk := match_name_at "" post (print_Z k) (print_digits k P)). assert (Mn := match_name_at "" post (print_Z n) (print_digits n A)).
      cbn [append] in Mk, Mn. assert (M3 : print_Z k = print_Z n) by congruence. apply print_Z_inj. exact M3.
  - rewrite IH. split; [tauto|]. intros (A & [E | B]); [|tauto]. injection E as -> ->.
    rewrite match_name_at in M by (apply print_digits; exact A). discriminate.
Qed.
Lemma found_nodup : forall pre post l, named_by pre post l -> NoDup (map fst l) -> NoDup (map fst (found pre post l)).
Proof.
  intros pre post l. induction l as [|(f, x) l IH]; intros H N; [constructor|].
  assert (Hl : named_by pre post l) by (intros f' b' ds I; apply (H f' b' ds); right; exact I).
  inversion N as [|? ? N1 N2]; subst. cbn [found]. destruct (match_name pre post f) as [ds|] eqn:M; [|auto].
  destruct (H f x ds (or_introl eq_refl) M) as (k & P & -> & ->). rewrite py_int_print. cbn [map fst]. constructor; [|auto].
  intros I. apply in_map_iff in I. destruct I as ((k', b) & E & I). cbn in E. subst k'. apply found_in in I; [|exact Hl].
  apply N1. apply in_map_iff. eexists. split; [|apply I]. reflexivity.
Qed.
Lemma find_percent : forall pre post, lacks_c "%" pre -> split_percent (pre ++ "%d" ++ post) = Some (pre, post).
Proof.
  intros pre post L. unfold split_percent.
  assert (F : find "%d" (pre ++ "%d" ++ post) = Some (String.length pre)).
  { induction pre as [|a pre IH]; [cbn; destruct post; reflexivity|]. apply lacks_c_cons in L. destruct L as (N & L).
    cbn [append find starts_with]. destruct (Ascii.eqb_spec "%" a); [congruence|]. cbn [andb]. cbn [append] in IH. rewrite IH by exact L. reflexivity. }
  rewrite F. f_equal. f_equal; [apply take_app_len|].
  replace (String.length pre + 2)%nat with (String.length (pre ++ "%d")) by (rewrite len_app; reflexivity).
  rewrite <- (sapp_assoc pre "%d" post). apply drop_app_len.
Qed.
Lemma has_char_none : forall f s, (forall c, f c = true -> lacks_c c s) -> has_char f s = false.
Proof.
  intros f s H. induction s as [|a s IH]; [reflexivity|]. cbn [has_char]. destruct (f a) eqn:E.
  - elim (proj1 (proj1 (lacks_c_cons a a s) (H a E))). reflexivity.
  - apply IH. intros c C. exact (proj2 (proj1 (lacks_c_cons c a s) (H c C))).
Qed.
Lemma found_existing : forall fs d l pre post ns, contents fs d l -> lacks_c "%" d -> lacks_c "%" pre -> lacks_c "%" post ->
  no_slash pre -> no_slash post -> Forall (fun p => 0 <= fst p /\ In (pre ++ print_Z (fst p) ++ post, snd p) l) ns ->
  existing fs (d ++ "/" ++ pre ++ "%d" ++ post) (map fst ns) = Ok ns.
Proof.
  intros fs d l pre post ns C Ld Lp Lq Np Nq H. induction ns as [|(n, b) ns IH]; [reflexivity|].
  inversion H as [|? ? (P & I) Hn]; subst. cbn [fst snd] in *. cbn [map existing fst]. unfold percent.
  replace (d ++ "/" ++ pre ++ "%d" ++ post) with ((d ++ "/" ++ pre) ++ "%d" ++ post) by (rewrite !sapp_assoc; reflexivity).
  rewrite find_percent.
  2:{ apply lacks_c_app. split; [exact Ld|]. apply lacks_c_app. split; [lacks_tac|exact Lp]. }
  rewrite has_char_none.
  2:{ intros c E. apply Ascii.eqb_eq in E. subst c. rewrite !sapp_assoc. apply lacks_c_app. split; [exact Ld|]. apply lacks_c_app. split; [lacks_tac|].
      apply lacks_c_app. split; assumption. }
  cbn [bind]. rewrite !sapp_assoc. rewrite (IH Hn). cbn [bind].
  rewrite (read_at fs d (pre ++ print_Z n ++ post) l C).
  2:{ apply lacks_c_app. split; [exact Np|]. apply lacks_c_app. split; [|exact Nq].
      assert (D := print_digits n P). destruct D as (_ & D). intros J. apply D in J. cbn in J. lia. }
  rewrite (assoc_found _ _ _ _ (proj2 (proj2 C)) I). reflexivity.
Qed.
Lemma find_numbers_at : forall fs base t id bw pre post l, media_files fs base t id bw pre post l -> tidy pre post l ->
  let path := base ++ "/" ++ meant id bw "%d" t in
  find_numbers fs path = Ok (map fst (found pre post l)) /\ existing fs path (map fst (found pre post l)) = Ok (found pre post l).
Proof.
  intros fs base t id bw pre post l (d & E & Np & Nq & C & L & Ld) T path. unfold path. rewrite E.
  assert (TN := tidy_named _ _ _ T).
  assert (LP : lacks_c "%" pre /\ lacks_c "%" post) by (apply L; cbn; tauto).
  split.
  - unfold find_numbers. rewrite path_split_at; [|apply C|].
    2:{ apply lacks_c_app. split; [exact Np|]. apply lacks_c_app. split; [lacks_tac|exact Nq]. }
    rewrite (proj1 (proj2 C)).
    assert (K : forall c, In c ["\"; "^"; "*"; "+"; "?"; "{"; "}"; "["; "]"; "|"; "("; ")"; "$"]%char -> lacks_c c (pre ++ "%d" ++ post)).
    { intros c I. destruct (L c) as (A & B). { cbn [In] in I |- *. tauto. }
      apply lacks_c_app. split; [exact A|]. apply lacks_c_app. split; [|exact B]. cbn [In] in I. unfold lacks_c, SourceSpec.lacks_char. cbn.
      intuition (subst; discriminate). }
    rewrite has_char_none.
    2:{ intros c S. unfold is_special in S. apply existsb_exists in S. destruct S as (c' & I & S). apply Ascii.eqb_eq in S. subst c'. apply K. cbn [In] in I |- *. tauto. }
    rewrite has_char_none.
    2:{ intros c S. apply Ascii.eqb_eq in S. subst c. apply K. cbn. tauto. }
    rewrite find_percent by apply LP. apply found_numbers. exact TN.
  - apply (found_existing fs d l); try assumption; try apply LP. apply Forall_forall. intros (n, b) I. cbn [fst snd]. apply found_in; assumption.
Qed.
