(** Searching and replacing in text. *)
From Coq Require Import ZifyBool ZifyNat.
From Verif Require Import Base BaseProofs ConfigModel StrModel MpdModel XlinkModel XlinkSpec.
Local Open Scope string_scope.
Open Scope Z_scope.

Lemma sapp_assoc : forall a b c : string, (a ++ b) ++ c = a ++ b ++ c.
Proof. intros a b c. induction a as [|x a IH]; [reflexivity|]. cbn [append]. rewrite IH. reflexivity. Qed.
Lemma sapp_nil : forall a, a ++ "" = a.
Proof. intros a. induction a as [|x a IH]; [reflexivity|]. cbn [append]. rewrite IH. reflexivity. Qed.
Lemma slen_app : forall a b, slen (a ++ b) = slen a + slen b.
Proof. intros a b. unfold slen. induction a as [|x a IH]; [reflexivity|]. cbn [append String.length]. lia. Qed.
Lemma len_app : forall a b, String.length (a ++ b) = (String.length a + String.length b)%nat.
Proof. intros a b. pose proof (slen_app a b). unfold slen in H. lia. Qed.
Lemma drop_app_len : forall a b, drop (String.length a) (a ++ b) = b.
Proof. intros a b. induction a as [|x a IH]; [destruct b; reflexivity|exact IH]. Qed.
Lemma take_app_len : forall a b, take (String.length a) (a ++ b) = a.
Proof. intros a b. induction a as [|x a IH]; [destruct b; reflexivity|]. cbn [append String.length take]. f_equal. exact IH. Qed.
Lemma take_all : forall s, take (String.length s) s = s.
Proof. intros s. rewrite <- (sapp_nil s) at 2. rewrite take_app_len. reflexivity. Qed.

(** ** Characters *)
Fixpoint has (c : ascii) (s : string) : bool :=
  match s with EmptyString => false | String a r => Ascii.eqb c a || has c r end.
Lemma has_app : forall c a b, has c (a ++ b) = has c a || has c b.
Proof. intros c a b. induction a as [|x a IH]; [reflexivity|]. cbn [append has]. rewrite IH, orb_assoc. reflexivity. Qed.
Lemma occurs_char : forall c s, occurs (String c "") s -> has c s = true.
Proof. intros c s (a & b & ->). rewrite has_app. cbn [append has]. rewrite Ascii.eqb_refl. cbn. apply orb_true_r. Qed.
Lemma has_occurs : forall c s, has c s = true -> occurs (String c "") s.
Proof.
  intros c s. induction s as [|a s IH]; [discriminate|]. cbn [has]. destruct (Ascii.eqb_spec c a) as [->|N]; cbn [orb].
  - intros _. exists "", s. reflexivity.
  - intros H. destruct (IH H) as (x & y & ->). exists (String a x), y. reflexivity.
Qed.
Lemma lacks_char : forall c s, lacks s (String c "") -> has c s = false.
Proof. intros c s L. destruct (has c s) eqn:E; [|reflexivity]. elim L. apply has_occurs. exact E. Qed.

(** ** Prefixes and occurrences *)
Lemma starts_exists : forall p s, starts_with p s = true <-> exists b, s = p ++ b.
Proof.
  intros p. induction p as [|a p IH]; intros s; [split; [exists s; reflexivity|reflexivity]|].
  destruct s as [|b s]; [split; [discriminate|intros (x & X); discriminate]|]. cbn [starts_with append]. rewrite andb_true_iff.
  rewrite Ascii.eqb_eq, IH. split.
  - intros (-> & x & ->). exists x. reflexivity.
  - intros (x & X). injection X as -> ->. split; [reflexivity|]. exists x. reflexivity.
Qed.
Lemma starts_self : forall p s, starts_with p (p ++ s) = true.
Proof. intros p s. apply starts_exists. exists s. reflexivity. Qed.
Lemma find_none : forall p s, find p s = None <-> lacks s p.
Proof.
  intros p s. unfold lacks, occurs. induction s as [|a s IH].
  - cbn [find]. destruct (starts_with p "") eqn:E.
    + split; [discriminate|]. intros N. elim N. apply starts_exists in E. destruct E as (b & E). exists "", b. exact E.
    + split; [|reflexivity]. intros _ (x & y & E'). destruct x; [|discriminate]. cbn in E'. rewrite (proj2 (starts_exists p "")) in E; [discriminate|]. exists y. exact E'.
  - cbn [find]. destruct (starts_with p (String a s)) eqn:E.
    + split; [discriminate|]. intros N. elim N. apply starts_exists in E. destruct E as (b & E). exists "", b. exact E.
    + destruct (find p s) as [i|] eqn:F; cbn [option_map].
      * split; [discriminate|]. intros N. assert (C : Some i = None); [|discriminate]. apply IH. intros (x & y & ->). apply N. exists (String a x), y. reflexivity.
      * split; [|reflexivity]. intros _ (x & y & E'). destruct x as [|b x].
        -- cbn in E'. rewrite (proj2 (starts_exists p (String a s))) in E; [discriminate|]. exists y. exact E'.
        -- injection E' as -> ->. apply (proj1 IH); [reflexivity|]. exists x, y. reflexivity.
Qed.
Lemma find_here : forall p s, find p (p ++ s) = Some 0%nat.
Proof. intros p s. pose proof (starts_self p s) as S. destruct (p ++ s); cbn [find]; rewrite S; reflexivity. Qed.

(** A text that continues with a character the pattern has only in front, or
    not at all: an occurrence cannot straddle the boundary. *)
Lemma starts_cut : forall p d s1 s2, has d p = false -> starts_with p (s1 ++ String d s2) = starts_with p s1.
Proof.
  intros p d. induction p as [|a p IH]; intros s1 s2 H; [destruct s1; reflexivity|].
  cbn [has] in H. apply orb_false_iff in H. destruct H as (N & H). destruct s1 as [|b s1]; cbn [append starts_with].
  - rewrite Ascii.eqb_sym, N. reflexivity.
  - rewrite IH by exact H. reflexivity.
Qed.
Lemma find_skip : forall c p d s1 s2, has d p = false -> lacks s1 (String c p) ->
  find (String c p) (s1 ++ String d s2) = option_map (fun i => (String.length s1 + i)%nat) (find (String c p) (String d s2)).
Proof.
  intros c p d s1 s2 H L. apply find_none in L.
  assert (C : forall s, starts_with p (s ++ String d s2) = starts_with p s) by (intros s; apply starts_cut; exact H).
  remember (String d s2) as t eqn:T. clear T H. induction s1 as [|a s1 IH].
  - cbn [append String.length]. destruct (find (String c p) t); reflexivity.
  - cbn [append String.length find starts_with] in L |- *. rewrite C.
    destruct (Ascii.eqb c a && starts_with p s1); [discriminate|].
    destruct (find (String c p) s1) eqn:F; [discriminate|]. rewrite IH by reflexivity.
    destruct (find (String c p) t); reflexivity.
Qed.
(** Characters that cannot begin the pattern. *)
Lemma find_nohead : forall c p s1 s2, has c s1 = false ->
  find (String c p) (s1 ++ s2) = option_map (fun i => (String.length s1 + i)%nat) (find (String c p) s2).
Proof.
  intros c p s1 s2. induction s1 as [|a s1 IH]; intros H.
  - cbn [append String.length]. destruct (find (String c p) s2); reflexivity.
  - cbn [has] in H. apply orb_false_iff in H. destruct H as (N & H). cbn [append String.length find starts_with]. rewrite N.
    cbn [andb]. rewrite IH by exact H. destruct (find (String c p) s2); reflexivity.
Qed.
Lemma lacks_app_head : forall c p d s1 s2, has d p = false -> lacks s1 (String c p) -> lacks (String d s2) (String c p) ->
  lacks (s1 ++ String d s2) (String c p).
Proof. intros c p d s1 s2 H L1 L2. apply find_none. rewrite find_skip by assumption. apply find_none in L2. rewrite L2. reflexivity. Qed.
Lemma lacks_nohead : forall c p s1 s2, has c s1 = false -> lacks s2 (String c p) -> lacks (s1 ++ s2) (String c p).
Proof. intros c p s1 s2 H L. apply find_none. rewrite find_nohead by assumption. apply find_none in L. rewrite L. reflexivity. Qed.
Lemma lacks_cons : forall c p a s, c <> a -> lacks s (String c p) -> lacks (String a s) (String c p).
Proof. intros c p a s N L. apply (lacks_nohead c p (String a "") s); [|exact L]. cbn. destruct (Ascii.eqb_spec c a); [contradiction|reflexivity]. Qed.
Lemma lacks_app_l : forall p s1 s2, lacks (s1 ++ s2) p -> lacks s1 p.
Proof. intros p s1 s2 L (a & b & ->). apply L. exists a, (b ++ s2). rewrite !sapp_assoc. reflexivity. Qed.
Lemma lacks_app_r : forall p s1 s2, lacks (s1 ++ s2) p -> lacks s2 p.
Proof. intros p s1 s2 L (a & b & ->). apply L. exists (s1 ++ a), b. rewrite !sapp_assoc. reflexivity. Qed.
(** A longer pattern is lacked too. *)
Lemma lacks_longer : forall s p q, lacks s p -> lacks s (p ++ q).
Proof. intros s p q L (a & b & ->). apply L. exists a, (q ++ b). rewrite !sapp_assoc. reflexivity. Qed.
Lemma lacks_inner : forall s p q r, lacks s p -> lacks s (q ++ p ++ r).
Proof. intros s p q r L (a & b & ->). apply L. exists (a ++ q), (r ++ b). rewrite !sapp_assoc. reflexivity. Qed.

(** ** Slices *)
Lemma fix_bound_in : forall s i, 0 <= i <= slen s -> fix_bound s i = Z.to_nat i.
Proof. intros s i H. unfold fix_bound. destruct (Z.ltb_spec i 0); [lia|]. rewrite Z.min_l by lia. reflexivity. Qed.
Lemma slen_nonneg : forall s, 0 <= slen s.
Proof. intros s. unfold slen. lia. Qed.
Lemma slice_mid : forall a b c, str_slice (slen a) (slen a + slen b) (a ++ b ++ c) = b.
Proof.
  intros a b c. pose proof (slen_nonneg a). pose proof (slen_nonneg b). pose proof (slen_nonneg c).
  unfold str_slice. rewrite !fix_bound_in by (rewrite !slen_app; lia).
  replace (Z.to_nat (slen a)) with (String.length a) by (unfold slen; lia). rewrite drop_app_len.
  replace (Z.to_nat (slen a + slen b) - String.length a)%nat with (String.length b) by (unfold slen; lia). apply take_app_len.
Qed.
Lemma slice_pre : forall a b, str_slice 0 (slen a) (a ++ b) = a.
Proof. intros a b. exact (slice_mid "" a b). Qed.
Lemma slice_post : forall a b, str_slice (slen a) (slen (a ++ b)) (a ++ b) = b.
Proof. intros a b. rewrite slen_app. pose proof (slice_mid a b "") as S. rewrite sapp_nil in S. exact S. Qed.
Lemma find_from_app : forall p a b i, find p b = Some i -> py_find_from p (a ++ b) (slen a) = slen a + Z.of_nat i.
Proof.
  intros p a b i F. unfold py_find_from. rewrite fix_bound_in by (rewrite slen_app; pose proof (slen_nonneg a); pose proof (slen_nonneg b); lia).
  replace (Z.to_nat (slen a)) with (String.length a) by (unfold slen; lia). rewrite drop_app_len, F. unfold slen. lia.
Qed.

(** ** Replacing *)
Lemma replace_none : forall old new s, (forall c o, old = String c o -> lacks s old) -> old <> "" -> replace_all old new s = s.
Proof.
  intros old new s L N. destruct old as [|c o]; [congruence|]. specialize (L c o eq_refl). apply find_none in L.
  unfold replace_all. induction s as [|a s IH]; [reflexivity|]. cbn [find] in L. cbn [replace_skip].
  destruct (starts_with (String c o) (String a s)); [discriminate|]. f_equal. apply IH.
  destruct (find (String c o) s); [discriminate|reflexivity].
Qed.
Lemma replace_skipped : forall old new a s, replace_skip old new (a ++ s) (String.length a) = replace_skip old new s 0.
Proof. intros old new a s. induction a as [|x a IH]; [reflexivity|]. cbn [append String.length replace_skip]. exact IH. Qed.
Lemma replace_here : forall c o new b, replace_skip (String c o) new (String c o ++ b) 0 = new ++ replace_skip (String c o) new b 0.
Proof.
  intros c o new b. pose proof (starts_self (String c o) b) as S. cbn [append] in S |- *. cbn [replace_skip]. rewrite S.
  replace (String.length (String c o) - 1)%nat with (String.length o) by (cbn [String.length]; lia).
  rewrite replace_skipped. reflexivity.
Qed.
Lemma replace_step : forall old new x s, starts_with old (String x s) = false ->
  replace_skip old new (String x s) 0 = String x (replace_skip old new s 0).
Proof. intros old new x s S. cbn [replace_skip]. rewrite S. reflexivity. Qed.
(** The only occurrence is replaced; [pre] is a beginning of the old text that
    occurs nowhere else. *)
Lemma replace_once : forall c pre q new a b, has c pre = false ->
  lacks a (String c pre) -> lacks b (String c pre) ->
  py_replace (String c pre ++ q) new (a ++ (String c pre ++ q) ++ b) = a ++ new ++ b.
Proof.
  intros c pre q new a b H La Lb. unfold py_replace. cbn [append]. change (String c (pre ++ q)) with (String c pre ++ q).
  set (old := String c pre ++ q) in *. apply find_none in La.
  assert (B : replace_skip old new b 0 = b).
  { apply (replace_none old new b); [|discriminate]. intros _ _ _. apply lacks_longer. exact Lb. }
  unfold replace_all. induction a as [|x a IH].
  - transitivity (new ++ replace_skip old new b 0); [exact (replace_here c (pre ++ q) new b)|]. rewrite B. reflexivity.
  - cbn [append]. cbn [find] in La.
    assert (S : starts_with old (String x (a ++ old ++ b)) = false).
    { destruct (starts_with old _) eqn:E; [|reflexivity]. apply starts_exists in E. destruct E as (y & E).
      assert (E2 : starts_with (String c pre) (String x (a ++ old ++ b)) = true).
      { apply starts_exists. exists (q ++ y). rewrite E. unfold old. rewrite sapp_assoc. reflexivity. }
      unfold old in E2. change ((String c pre ++ q) ++ b) with (String c ((pre ++ q) ++ b)) in E2.
      cbn [starts_with] in E2. rewrite starts_cut in E2 by exact H. cbn [starts_with] in La. rewrite E2 in La. discriminate. }
    rewrite (replace_step _ _ _ _ S). f_equal. apply IH. destruct (starts_with (String c pre) (String x a)); [discriminate|].
    destruct (find (String c pre) a); [discriminate|reflexivity].
Qed.
