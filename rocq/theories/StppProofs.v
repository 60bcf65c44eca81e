From Verif Require Import Base BaseProofs BytesModel BytesProofs TimeModel TimeProofs TtmlModel TtmlSpec TtmlTheory LangModel
  StppModel StppSpec.
Open Scope Z_scope.

(** ** Substitution without a bound *)
Section sub.
  Variable m : bytes -> option (bytes * bytes).
  Inductive Sub : bytes -> bytes -> Prop :=
  | Sub_nil : Sub [] []
  | Sub_hit : forall b o r out, m b = Some (o, r) -> (List.length r < List.length b)%nat -> Sub r out -> Sub b (o ++ out)
  | Sub_step : forall x r out, m (x :: r) = None -> Sub r out -> Sub (x :: r) (x :: out).
  Lemma Sub_re : m [] = None -> forall b out, Sub b out -> forall fuel, (List.length b <= fuel)%nat -> re_sub m fuel b = out.
  Proof.
    intros M0 b out H. induction H as [|b o r out E L H IH|x r out E H IH]; intros fuel F.
    - destruct fuel; cbn [re_sub]; [reflexivity|]. rewrite M0. reflexivity.
    - destruct fuel; [lia|]. cbn [re_sub]. rewrite E. rewrite IH by lia. reflexivity.
    - cbn [List.length] in F. destruct fuel; [lia|]. cbn [re_sub]. rewrite E. rewrite IH by lia. reflexivity.
  Qed.
  Lemma Sub_all : m [] = None -> forall b out, Sub b out -> sub_all m b = out.
  Proof. intros. unfold sub_all. apply Sub_re; auto. Qed.
  Lemma Sub_plain : forall s rest out, (forall s1 x s2, s = s1 ++ x :: s2 -> m (x :: s2 ++ rest) = None) ->
    Sub rest out -> Sub (s ++ rest) (s ++ out).
  Proof.
    induction s as [|x s IH]; intros rest out H R; [exact R|]. cbn [app]. apply Sub_step.
    - apply (H [] x s). reflexivity.
    - apply IH; [|exact R]. intros s1 y s2 E. apply (H (x :: s1) y s2). rewrite E. reflexivity.
  Qed.
End sub.

(** ** Constant text in which nothing is found *)
Fixpoint differs (p s : bytes) : bool :=
  match p, s with
  | x :: p', y :: s' => if x =? y then differs p' s' else true
  | _, _ => false
  end.
Lemma differs_strip : forall p s rest, differs p s = true -> strip_prefix p (s ++ rest) = None.
Proof.
  induction p as [|x p IH]; intros s rest H; [discriminate|]. destruct s as [|y s]; [discriminate|].
  cbn [differs] in H. cbn [app strip_prefix]. destruct (x =? y); auto.
Qed.
Fixpoint dead (f : bytes -> bool) (s : bytes) : bool :=
  match s with [] => true | _ :: r => f s && dead f r end.
Lemma dead_suffix : forall f s1 x s2, dead f (s1 ++ x :: s2) = true -> f (x :: s2) = true.
Proof.
  induction s1 as [|y s1 IH]; intros x s2 H; cbn [app dead] in H; apply andb_prop in H; [tauto|]. apply IH. tauto.
Qed.
Definition no_time (s : bytes) : bool := differs (bstr "begin" ++ eqquote) s && differs (bstr "end" ++ eqquote) s.
Definition no_line (s : bytes) : bool :=
  let '(w, r) := take_while bword s in
  match w, r with [], _ => true | _, [] => false | _, _ => differs (bstr " : ") r end.
Definition no_segment (s : bytes) : bool := differs (bstr "Segment # ") s.

Lemma dead_time : forall off s rest out, dead no_time s = true -> Sub (match_time off) rest out ->
  Sub (match_time off) (s ++ rest) (s ++ out).
Proof.
  intros off s rest out D R. apply Sub_plain; [|exact R]. intros s1 x s2 ->. apply dead_suffix in D.
  apply andb_prop in D. destruct D as [D1 D2]. unfold match_time, match_time_attr.
  change (x :: s2 ++ rest) with ((x :: s2) ++ rest). rewrite !differs_strip by assumption. reflexivity.
Qed.
Lemma take_more : forall p s w y r rest, take_while p s = (w, y :: r) -> take_while p (s ++ rest) = (w, (y :: r) ++ rest).
Proof.
  induction s as [|x s IH]; intros w y r rest H; [discriminate|]. cbn [take_while app] in *. destruct (p x).
  - destruct (take_while p s) as [a z]. injection H as <- ->. rewrite (IH a y r rest eq_refl). reflexivity.
  - injection H as <- <- <-. reflexivity.
Qed.
Lemma dead_line : forall off s rest out, dead no_line s = true -> Sub (match_content off) rest out ->
  Sub (match_content off) (s ++ rest) (s ++ out).
Proof.
  intros off s rest out D R. apply Sub_plain; [|exact R]. intros s1 x s2 ->. apply dead_suffix in D.
  unfold no_line in D. unfold match_content. change (x :: s2 ++ rest) with ((x :: s2) ++ rest).
  destruct (take_while bword (x :: s2)) as [w r] eqn:E. destruct r as [|y r].
  - destruct w; [|discriminate]. exfalso. cbn [take_while] in E. destruct (bword x); [|discriminate].
    destruct (take_while bword s2); discriminate.
  - rewrite (take_more _ _ _ _ _ rest E). destruct w; [reflexivity|]. rewrite differs_strip by exact D. reflexivity.
Qed.
Lemma dead_segment : forall nr s rest out, dead no_segment s = true -> Sub (match_segment nr) rest out ->
  Sub (match_segment nr) (s ++ rest) (s ++ out).
Proof.
  intros nr s rest out D R. apply Sub_plain; [|exact R]. intros s1 x s2 ->. apply dead_suffix in D.
  unfold match_segment. change (x :: s2 ++ rest) with ((x :: s2) ++ rest). rewrite differs_strip by exact D. reflexivity.
Qed.

(** ** Variable text in which nothing is found *)
Lemma bytes_time : forall off s rest out, Forall (fun x => x <> 98 /\ x <> 101) s -> Sub (match_time off) rest out ->
  Sub (match_time off) (s ++ rest) (s ++ out).
Proof.
  intros off s rest out D R. apply Sub_plain; [|exact R]. intros s1 x s2 ->. apply Forall_app in D. destruct D as [_ D].
  inversion D as [|? ? [X Y] _]; subst. unfold match_time, match_time_attr. change (bstr "begin") with [98; 101; 103; 105; 110].
  change (bstr "end") with [101; 110; 100]. cbn [app strip_prefix].
  destruct (Z.eqb_spec 98 x); [congruence|]. destruct (Z.eqb_spec 101 x); [congruence|]. reflexivity.
Qed.
Lemma bytes_segment : forall nr s rest out, Forall (fun x => x <> 83) s -> Sub (match_segment nr) rest out ->
  Sub (match_segment nr) (s ++ rest) (s ++ out).
Proof.
  intros nr s rest out D R. apply Sub_plain; [|exact R]. intros s1 x s2 ->. apply Forall_app in D. destruct D as [_ D].
  inversion D as [|? ? X _]; subst. unfold match_segment. change (bstr "Segment # ") with (83 :: bstr "egment # "). cbn [strip_prefix].
  destruct (Z.eqb_spec 83 x); [congruence|]. reflexivity.
Qed.
Lemma take_tail : forall p s c rest, p c = false -> exists w r, take_while p (s ++ c :: rest) = (w, r) /\
  exists s2, (s2 = [] \/ exists s1, s = s1 ++ s2) /\ r = s2 ++ c :: rest.
Proof.
  induction s as [|x s IH]; intros c rest H.
  - exists [], (c :: rest). cbn [app take_while]. rewrite H. split; [reflexivity|]. exists []. auto.
  - cbn [app take_while]. destruct (p x).
    + destruct (IH c rest H) as (w & r & E & s2 & K & ->). rewrite E. exists (x :: w), (s2 ++ c :: rest). split; [reflexivity|].
      exists s2. split; [|reflexivity]. destruct K as [K|(s1 & K)]; [auto|]. right. exists (x :: s1). rewrite K. reflexivity.
    + exists [], (x :: s ++ c :: rest). split; [reflexivity|]. exists (x :: s). split; [|reflexivity]. right. exists []. reflexivity.
Qed.
Lemma bytes_line : forall off s c rest out, Forall (fun x => x <> 32) s -> bword c = false -> c <> 32 ->
  Sub (match_content off) (c :: rest) out -> Sub (match_content off) (s ++ c :: rest) (s ++ out).
Proof.
  intros off s c rest out D W C R. apply Sub_plain; [|exact R]. intros s1 x s2 ->. apply Forall_app in D. destruct D as [_ D].
  unfold match_content. change (x :: s2 ++ c :: rest) with ((x :: s2) ++ c :: rest).
  destruct (take_tail bword (x :: s2) c rest W) as (w & r & E & s3 & K & ->). rewrite E. destruct w as [|w0 w]; [reflexivity|].
  assert (F : Forall (fun x => x <> 32) s3).
  { destruct K as [->|(s4 & K)]; [constructor|]. rewrite K in D. apply Forall_app in D. tauto. }
  change (bstr " : ") with [32; 58; 32].
  assert (N : strip_prefix [32; 58; 32] (s3 ++ c :: rest) = None).
  { destruct s3 as [|y s3]; cbn [app strip_prefix].
    - destruct (Z.eqb_spec 32 c); [congruence|reflexivity].
    - inversion F; subst. destruct (Z.eqb_spec 32 y); [congruence|reflexivity]. }
  rewrite N. reflexivity.
Qed.

(** ** Numbers and times as text *)
Lemma digits_zeros : forall k s, digits_val (zeros k ++ s)%string 0 = digits_val s 0.
Proof. induction k; intros; [reflexivity|]. cbn [zeros append digits_val]. apply IHk. Qed.
Lemma all_zeros : forall k, all_digits (zeros k) = true.
Proof. induction k; [reflexivity|]. exact IHk. Qed.
Lemma app_nonempty : forall a b, b <> ""%string -> (a ++ b)%string <> ""%string.
Proof. intros [|c a] b H; [exact H|discriminate]. Qed.
Lemma pad_digits : forall w n, 0 <= n -> all_digits (pad w n) = true /\ pad w n <> ""%string /\ digits_val (pad w n) 0 = n.
Proof.
  intros w n H. unfold pad. destruct (Z.ltb_spec n 0); [lia|]. destruct (print_Z_digits n H) as (A & B & C).
  rewrite all_digits_app, all_zeros, A, digits_zeros, B. split; [reflexivity|]. split; [apply app_nonempty; exact C|reflexivity].
Qed.
Lemma pad2 : forall n, 0 <= n -> bstr (pad 2 n) = hours n.
Proof.
  intros n H. unfold hours. destruct (Z.ltb_spec n 100) as [L|L].
  - assert (K : exists k, n = Z.of_nat k /\ (k < 100)%nat) by (exists (Z.to_nat n); lia).
    destruct K as (k & -> & K). do 100 (destruct k as [|k]; [vm_compute; reflexivity|]). lia.
  - unfold pad. destruct (Z.ltb_spec n 0); [lia|].
    destruct (print_Z_digits n H) as (A & B & C).
    destruct (print_Z n) as [|x [|y s]] eqn:E; [congruence| |reflexivity].
    exfalso. cbn [all_digits digits_val] in *. destruct (digit_val x) as [v|] eqn:V; [|discriminate].
    unfold digit_val in V. destruct ((48 <=? Z.of_nat (nat_of_ascii x)) && (Z.of_nat (nat_of_ascii x) <=? 57)) eqn:Q; [|discriminate].
    injection V as <-. lia.
Qed.
Lemma pad2_two : forall n, 0 <= n < 100 -> bstr (pad 2 n) = two n.
Proof. intros n H. rewrite pad2 by lia. unfold hours. destruct (Z.ltb_spec n 100); [reflexivity|lia]. Qed.
Lemma pad3 : forall n, 0 <= n < 1000 -> bstr (pad 3 n) = three n.
Proof.
  assert (A : forallb (fun k => bytes_eqb (bstr (pad 3 (Z.of_nat k))) (three (Z.of_nat k))) (seq 0 1000) = true)
    by (vm_compute; reflexivity).
  intros n H. rewrite forallb_forall in A. specialize (A (Z.to_nat n)).
  rewrite Z2Nat.id in A by lia. apply bytes_eqb_eq. apply A. apply in_seq. lia.
Qed.
Lemma time_string : forall t, 0 <= t -> bstr (create_time_string t) = clock_ms t.
Proof.
  intros t H. unfold create_time_string, clock_ms, clock. cbv zeta. rewrite !bstr_app.
  change (bstr ":") with [58]. change (bstr ".") with [46].
  assert (E1 : t / 3600000 = t / 1000 / 3600) by (rewrite Z.div_div by lia; reflexivity).
  assert (E2 : t mod 3600000 / 60000 = t / 1000 / 60 mod 60) by (Z.to_euclidean_division_equations; lia).
  assert (E3 : (t mod 3600000) mod 60000 / 1000 = t / 1000 mod 60) by (Z.to_euclidean_division_equations; lia).
  assert (E4 : ((t mod 3600000) mod 60000) mod 1000 = t mod 1000) by (Z.to_euclidean_division_equations; lia).
  rewrite E1, E2, E3, E4. rewrite pad2 by (apply Z.div_pos; [apply Z.div_pos|]; lia).
  rewrite !pad2_two by (Z.to_euclidean_division_equations; lia).
  rewrite pad3 by (apply Z.mod_pos_bound; lia). rewrite <- !app_assoc. reflexivity.
Qed.
Lemma clock_hms : forall t, 0 <= t < 360000 -> clock t = hms_text (t / 3600) (t / 60 mod 60) (t mod 60).
Proof.
  intros t H. unfold clock, hms_text, hours. assert (t / 3600 < 100) by (apply Z.div_lt_upper_bound; lia).
  destruct (Z.ltb_spec (t / 3600) 100); [reflexivity|lia].
Qed.
Lemma clock_ms_moved : forall t off, clock_ms (t + 1000 * off) = clock (t / 1000 + off) ++ [46] ++ three (t mod 1000).
Proof.
  intros. unfold clock_ms. rewrite (Z.mul_comm 1000). rewrite Z.div_add by lia. rewrite Z.mod_add by lia. reflexivity.
Qed.

(** bytes of numbers and times *)
Definition vb (x : Z) : Prop := 46 <= x <= 58.
Lemma digit_vb : forall d, all_digit d -> Forall vb d.
Proof. intros d H. eapply Forall_impl; [|exact H]. intros x X. unfold digit, vb in *. lia. Qed.
Lemma three_digit : forall n, 0 <= n < 1000 -> all_digit (three n).
Proof. intros n H. unfold three, all_digit, digit. repeat constructor; Z.to_euclidean_division_equations; lia. Qed.
Lemma hours_digit : forall n, 0 <= n -> all_digit (hours n).
Proof.
  intros n H. unfold hours. destruct (Z.ltb_spec n 100); [apply two_all; lia|]. apply digit_bytes. apply print_Z_digits. lia.
Qed.
Lemma clock_vb : forall t, 0 <= t -> Forall vb (clock t).
Proof.
  intros t H. unfold clock.
  assert (A : Forall vb [58]) by (constructor; [unfold vb; lia|constructor]).
  apply Forall_app; split; [apply digit_vb, hours_digit; apply Z.div_pos; lia|]. apply Forall_app; split; [exact A|].
  apply Forall_app; split; [apply digit_vb, two_all; Z.to_euclidean_division_equations; lia|]. apply Forall_app; split; [exact A|].
  apply digit_vb, two_all; Z.to_euclidean_division_equations; lia.
Qed.
Lemma frac_vb : forall t, Forall vb ([46] ++ three (t mod 1000)).
Proof.
  intros. constructor; [unfold vb; lia|]. apply digit_vb, three_digit. apply Z.mod_pos_bound. lia.
Qed.
Lemma clock_ms_vb : forall t, 0 <= t -> Forall vb (clock_ms t).
Proof.
  intros t H. unfold clock_ms. apply Forall_app. split; [apply clock_vb; apply Z.div_pos; lia|apply frac_vb].
Qed.
Lemma numbered_vb : forall p n, numbered p n -> exists x d, bstr (pr_id p) = bstr "sub" ++ x :: d /\ Forall vb (x :: d).
Proof.
  intros p n (d & E & D & NE & _). apply digit_bytes in D. apply digit_vb in D. rewrite E, bstr_app.
  destruct d as [|c d]; [congruence|]. cbn [bstr] in *. exists (Z.of_nat (nat_of_ascii c)), (bstr d). auto.
Qed.
Lemma vb_time : forall s, Forall vb s -> Forall (fun x => x <> 98 /\ x <> 101) s.
Proof. intros s H. eapply Forall_impl; [|exact H]. unfold vb. lia. Qed.
Lemma vb_line : forall s, Forall vb s -> Forall (fun x => x <> 32) s.
Proof. intros s H. eapply Forall_impl; [|exact H]. unfold vb. lia. Qed.
Lemma vb_segment : forall s, Forall vb s -> Forall (fun x => x <> 83) s.
Proof. intros s H. eapply Forall_impl; [|exact H]. unfold vb. lia. Qed.

(** ** The three passes over a paragraph *)
Lemma par_bytes : forall p, bstr (par_text p) = bstr tmpl_1 ++ bstr (pr_id p) ++ bstr tmpl_2 ++ bstr (pr_begin p) ++
  bstr tmpl_3 ++ bstr (pr_end p) ++ bstr tmpl_4 ++ bstr (pr_text p) ++ bstr tmpl_5.
Proof. intros. unfold par_text. rewrite !bstr_app. reflexivity. Qed.

Definition pass1 (off : Z) (c : Z * Z) (p : par) : par :=
  mk_par (create_time_string (fst c + 1000 * off)) (create_time_string (snd c + 1000 * off)) (pr_id p) (pr_text p).
Definition pass2 (lang : string) (off : Z) (c : Z * Z) (p : par) : par :=
  mk_par (pr_begin p) (pr_end p) (pr_id p) (lang ++ " : UTC = " ++ make_timestamp ((fst c + 1000 * off) / 1000)).

Lemma hms_sum : forall u, 3600 * (u / 3600) + 60 * (u / 60 mod 60) + u mod 60 = u.
Proof.
  intros u. replace (u / 3600) with (u / 60 / 60) by (rewrite Z.div_div by lia; reflexivity).
  assert (A := Z.div_mod u 60 ltac:(lia)). assert (B := Z.div_mod (u / 60) 60 ltac:(lia)). lia.
Qed.
Lemma stamp_hit : forall off k t rest out, 0 <= t < 360000000 -> 0 <= t + 1000 * off -> Sub (match_time off) rest out ->
  Sub (match_time off) (((if k : bool then bstr "begin=" else bstr "end=") ++ [34]) ++ clock_ms t ++ rest)
    (((if k then bstr "begin=" else bstr "end=") ++ [34]) ++ clock_ms (t + 1000 * off) ++ out).
Proof.
  intros off k t rest out T P R. rewrite clock_ms_moved. unfold clock_ms.
  assert (TS : 0 <= t / 1000 < 360000) by (split; [apply Z.div_pos|apply Z.div_lt_upper_bound]; lia).
  assert (TP : 0 <= t / 1000 + off) by (Z.to_euclidean_division_equations; lia).
  set (u := t / 1000) in *.
  set (a := mk_stamp k (u / 3600) (u / 60 mod 60) (u mod 60)).
  assert (A : stamp_ok a) by (unfold stamp_ok; cbn; Z.to_euclidean_division_equations; lia).
  assert (S : seconds a = u) by apply hms_sum.
  assert (H1 : ((if k then bstr "begin=" else bstr "end=") ++ [34]) ++ (clock u ++ [46] ++ three (t mod 1000)) ++ rest =
               stamp_text a ++ ([46] ++ three (t mod 1000)) ++ rest).
  { rewrite clock_hms by exact TS. rewrite stamp_text_eq. unfold name_of. cbn [st_begin st_h st_m st_s a]. destruct k; rewrite <- !app_assoc; reflexivity. }
  assert (H2 : ((if k then bstr "begin=" else bstr "end=") ++ [34]) ++ (clock (u + off) ++ [46] ++ three (t mod 1000)) ++ out =
               moved_text off a ++ ([46] ++ three (t mod 1000)) ++ out).
  { unfold moved_text. rewrite S. unfold name_of. cbn [st_begin a]. destruct k; rewrite <- !app_assoc; reflexivity. }
  rewrite H1, H2. apply Sub_hit with (r := ([46] ++ three (t mod 1000)) ++ rest).
  - apply time_ok; [exact A|]. rewrite S. exact TP.
  - rewrite !app_length. assert (stamp_text a <> []) by apply stamp_nonempty. destruct (stamp_text a); [congruence|]. cbn [List.length]. lia.
  - apply bytes_time; [|exact R]. apply vb_time, frac_vb.
Qed.
Lemma id_time : forall off p n rest out, numbered p n -> Sub (match_time off) rest out ->
  Sub (match_time off) (bstr (pr_id p) ++ rest) (bstr (pr_id p) ++ out).
Proof.
  intros off p n rest out N R. destruct (numbered_vb p n N) as (x & d & E & V). rewrite E, <- !app_assoc.
  change (bstr "sub") with [115; 117; 98]. cbn [app].
  assert (X : vb x) by (inversion V; auto).
  apply Sub_step; [reflexivity|]. apply Sub_step; [reflexivity|]. apply Sub_step.
  - unfold match_time, match_time_attr. change (bstr "begin") with [98; 101; 103; 105; 110]. change (bstr "end") with [101; 110; 100].
    cbn [app strip_prefix]. change (98 =? 98) with true. change (101 =? 98) with false. cbv iota.
    unfold vb in X. destruct (Z.eqb_spec 101 x); [lia|reflexivity].
  - apply (bytes_time off (x :: d)); [|exact R]. apply vb_time. exact V.
Qed.
Lemma lang_time : forall off lang rest out, code lang -> Sub (match_time off) rest out ->
  Sub (match_time off) (bstr lang ++ bstr " : " ++ rest) (bstr lang ++ bstr " : " ++ out).
Proof.
  intros off lang rest out (a & b & c & E & A & B & C) R. rewrite E. change (bstr " : ") with [32; 58; 32]. cbn [app].
  do 3 (apply Sub_step;
    [unfold match_time, match_time_attr; change (bstr "begin") with [98; 101; 103; 105; 110]; change (bstr "end") with [101; 110; 100];
     unfold eqquote; cbn [app strip_prefix]; repeat (match goal with |- context [if ?p =? ?q then _ else _] => destruct (p =? q) eqn:? end; try reflexivity; try discriminate)|]).
  do 3 (apply Sub_step; [reflexivity|]). exact R.
Qed.
Lemma pass1_ok : forall off lang c p rest out, code lang -> says lang c p ->
  0 <= fst c < 360000000 -> 0 <= snd c < 360000000 -> 0 <= fst c + 1000 * off -> 0 <= snd c + 1000 * off ->
  Sub (match_time off) rest out ->
  Sub (match_time off) (bstr (par_text p) ++ rest) (bstr (par_text (pass1 off c p)) ++ out).
Proof.
  intros off lang c p rest out L (B & E & N & T) F S FO SO R. rewrite !par_bytes. unfold pass1. cbn [pr_begin pr_end pr_id pr_text].
  rewrite !time_string by assumption. rewrite B, E, T. rewrite <- !app_assoc.
  apply dead_time; [vm_compute; reflexivity|]. apply (id_time off p (fst c)); [exact N|].
  change (bstr tmpl_2) with ([34; 32] ++ (bstr "begin=" ++ [34])). rewrite <- (app_assoc [34; 32]).
  rewrite <- (app_assoc [34; 32]). apply dead_time; [vm_compute; reflexivity|].
  apply (stamp_hit off true); [assumption..|].
  change (bstr tmpl_3) with ([34; 32] ++ (bstr "end=" ++ [34])). rewrite <- (app_assoc [34; 32]).
  rewrite <- (app_assoc [34; 32]). apply dead_time; [vm_compute; reflexivity|].
  apply (stamp_hit off false); [assumption..|].
  apply dead_time; [vm_compute; reflexivity|]. apply lang_time; [exact L|].
  apply bytes_time; [apply vb_time, clock_ms_vb; tauto|]. apply dead_time; [vm_compute; reflexivity|]. exact R.
Qed.

Lemma line_hit : forall off lang t rest out, code lang -> 0 <= t < 360000000 ->
  Sub (match_content off) (bstr tmpl_5 ++ rest) out ->
  Sub (match_content off) (bstr lang ++ bstr " : " ++ clock_ms t ++ bstr tmpl_5 ++ rest)
    ((bstr lang ++ bstr " : UTC = " ++ bstr (make_timestamp ((t + 1000 * off) / 1000))) ++ out).
Proof.
  intros off lang t rest out L T R. rewrite (Z.mul_comm 1000), Z.div_add by lia.
  assert (TS : 0 <= t / 1000 < 360000) by (split; [apply Z.div_pos|apply Z.div_lt_upper_bound]; lia).
  unfold clock_ms. rewrite clock_hms by exact TS. set (u := t / 1000) in *.
  set (a := mk_line (bstr lang) (u / 3600) (u / 60 mod 60) (u mod 60) (three (t mod 1000))).
  assert (S : 3600 * ln_h a + 60 * ln_m a + ln_s a = u) by apply hms_sum.
  assert (H1 : bstr lang ++ bstr " : " ++ (hms_text (u / 3600) (u / 60 mod 60) (u mod 60) ++ [46] ++ three (t mod 1000)) ++ bstr tmpl_5 ++ rest =
               line_text a ++ bstr tmpl_5 ++ rest).
  { unfold line_text, hms_text. cbn [ln_lang ln_h ln_m ln_s ln_frac a]. rewrite <- !app_assoc. reflexivity. }
  assert (H2 : bstr lang ++ bstr " : UTC = " ++ bstr (make_timestamp (u + off)) = line_out off (fun t => bstr (make_timestamp t)) a).
  { unfold line_out. rewrite S. reflexivity. }
  rewrite H1, H2. apply Sub_hit with (r := bstr tmpl_5 ++ rest); [| |exact R].
  - apply content_ok. destruct L as (x & y & z & E & X & Y & Z'). unfold line_ok. cbn [ln_lang ln_h ln_m ln_s ln_frac a]. rewrite E.
    split; [discriminate|]. split.
    { unfold small in *. repeat constructor; unfold word, digit; lia. }
    split; [Z.to_euclidean_division_equations; lia|]. split; [Z.to_euclidean_division_equations; lia|].
    split; [Z.to_euclidean_division_equations; lia|]. split; [apply three_digit, Z.mod_pos_bound; lia|]. reflexivity.
  - destruct L as (x & y & z & E & _). rewrite (app_length (line_text a)). unfold line_text. cbn [ln_lang a]. rewrite E. cbn [app List.length]. lia.
Qed.
Lemma val_then : forall off s k rest out, Forall (fun x => x <> 32) s -> btake 1 k = [34] -> dead no_line k = true ->
  Sub (match_content off) rest out -> Sub (match_content off) (s ++ k ++ rest) (s ++ k ++ out).
Proof.
  intros off s k rest out F K D R. apply (dead_line off k) in R; [|exact D]. destruct k as [|y k]; [discriminate|].
  unfold btake in K. cbn [firstn Z.to_nat Pos.to_nat Pos.iter_op Init.Nat.add] in K. injection K as ->. cbn [app] in *.
  apply bytes_line; [exact F|reflexivity|lia|exact R].
Qed.
Lemma pass2_ok : forall off lang c p rest out, code lang -> 0 <= fst c < 360000000 -> numbered p (fst c) ->
  (exists t, 0 <= t /\ bstr (pr_begin p) = clock_ms t) -> (exists t, 0 <= t /\ bstr (pr_end p) = clock_ms t) ->
  bstr (pr_text p) = bstr lang ++ bstr " : " ++ clock_ms (fst c) ->
  Sub (match_content off) rest out ->
  Sub (match_content off) (bstr (par_text p) ++ rest) (bstr (par_text (pass2 lang off c p)) ++ out).
Proof.
  intros off lang c p rest out L F N (tb & TB & B) (te & TE & E) T R. rewrite !par_bytes. unfold pass2.
  cbn [pr_begin pr_end pr_id pr_text]. rewrite !bstr_app, B, E, T. rewrite <- !app_assoc.
  apply dead_line; [vm_compute; reflexivity|].
  destruct (numbered_vb p _ N) as (x & d & I & V). rewrite I.
  apply val_then; [|reflexivity|vm_compute; reflexivity|].
  { apply Forall_app. split; [repeat constructor; cbn; lia|]. apply vb_line. exact V. }
  apply val_then; [apply vb_line, clock_ms_vb; exact TB|reflexivity|vm_compute; reflexivity|].
  apply val_then; [apply vb_line, clock_ms_vb; exact TE|reflexivity|vm_compute; reflexivity|].
  rewrite (app_assoc (bstr " : UTC = ")), (app_assoc (bstr lang) (bstr " : UTC = " ++ _)).
  apply line_hit; auto. apply dead_line; [vm_compute; reflexivity|]. exact R.
Qed.

Lemma printed_noS : forall n, Forall (fun x => x <> 83) (bstr (print_Z n)).
Proof.
  intros n. unfold print_Z. destruct (Z.ltb_spec n 0).
  - cbn [append bstr]. constructor; [cbn; lia|]. apply vb_segment, digit_vb, digit_bytes. apply print_nat_spec. lia.
  - apply vb_segment, digit_vb, digit_bytes. apply print_nat_spec. lia.
Qed.
Lemma two_noS : forall n, Forall (fun x => x <> 83) (bstr (print_02d n)).
Proof.
  intros n. unfold print_02d. destruct ((0 <=? n) && (n <? 10)); [cbn [bstr]; constructor; [cbn; lia|]|]; apply printed_noS.
Qed.
Lemma stamp_noS : forall t, Forall (fun x => x <> 83) (bstr (make_timestamp t)).
Proof.
  intros t. unfold make_timestamp, strftime_utc. rewrite !bstr_app.
  repeat (apply Forall_app; split); try apply printed_noS; try apply two_noS; (constructor; [cbn; lia|constructor]).
Qed.
Lemma pass3_ok : forall nr lang p n rest out, code lang -> numbered p n ->
  (exists t, 0 <= t /\ bstr (pr_begin p) = clock_ms t) -> (exists t, 0 <= t /\ bstr (pr_end p) = clock_ms t) ->
  (exists t, bstr (pr_text p) = bstr lang ++ bstr " : UTC = " ++ bstr (make_timestamp t)) ->
  Sub (match_segment nr) rest out ->
  Sub (match_segment nr) (bstr (par_text p) ++ rest) (bstr (par_text p) ++ out).
Proof.
  intros nr lang p n rest out (a & b & c & L & A & B' & C) N (tb & TB & B) (te & TE & E) (t & T) R. rewrite !par_bytes.
  destruct (numbered_vb p _ N) as (x & d & I & V). rewrite I, B, E, T. rewrite <- !app_assoc.
  apply dead_segment; [vm_compute; reflexivity|].
  apply bytes_segment; [repeat constructor; cbn; lia|].
  apply (bytes_segment nr (x :: d)); [apply vb_segment; exact V|]. apply dead_segment; [vm_compute; reflexivity|].
  apply bytes_segment; [apply vb_segment, clock_ms_vb; exact TB|]. apply dead_segment; [vm_compute; reflexivity|].
  apply bytes_segment; [apply vb_segment, clock_ms_vb; exact TE|]. apply dead_segment; [vm_compute; reflexivity|].
  apply bytes_segment; [rewrite L; unfold small in *; repeat constructor; lia|]. apply dead_segment; [vm_compute; reflexivity|].
  apply bytes_segment; [apply stamp_noS|]. apply dead_segment; [vm_compute; reflexivity|]. exact R.
Qed.

(** ** Documents *)
Lemma doc_bytes : forall ps, bstr (ttml_doc ps) = bstr tmpl_head ++ bstr (pars_text ps) ++ bstr tmpl_tail.
Proof. intros. unfold ttml_doc. rewrite !bstr_app. reflexivity. Qed.
Lemma pars_sub : forall m (R : par -> par -> Prop) ps qs rest out,
  (forall p q rest out, R p q -> Sub m rest out -> Sub m (bstr (par_text p) ++ rest) (bstr (par_text q) ++ out)) ->
  Forall2 R ps qs -> Sub m rest out -> Sub m (bstr (pars_text ps) ++ rest) (bstr (pars_text qs) ++ out).
Proof.
  intros m R ps qs rest out H F S. induction F as [|p q ps qs X F IH]; [exact S|]. cbn [pars_text]. rewrite !bstr_app, <- !app_assoc.
  apply H; auto.
Qed.
Definition in_range (off : Z) (c : Z * Z) : Prop :=
  0 <= fst c < 360000000 /\ 0 <= snd c < 360000000 /\ 0 <= fst c + 1000 * off /\ 0 <= snd c + 1000 * off.
Definition live (lang : string) (off : Z) (x : (Z * Z) * par) : par := pass2 lang off (fst x) (pass1 off (fst x) (snd x)).
Lemma Forall2_combine : forall A B (R : A -> B -> Prop) l m, Forall2 R l m ->
  Forall (fun x => R (fst x) (snd x)) (combine l m) /\ m = map snd (combine l m) /\ l = map fst (combine l m).
Proof.
  induction 1 as [|a b l m H F (I1 & I2 & I3)]; cbn [combine map fst snd]; [auto|].
  split; [constructor; auto|]. split; f_equal; auto.
Qed.
Lemma Forall2_maps : forall A B (f g : A -> B) (R : B -> B -> Prop) l, Forall (fun x => R (f x) (g x)) l -> Forall2 R (map f l) (map g l).
Proof. induction 1; cbn [map]; constructor; auto. Qed.
Lemma live_says : forall lang off c p, says lang c p -> in_range off c -> says_live lang off c (live lang off (c, p)).
Proof.
  intros lang off c p (B & E & N & T) (F & S & FO & SO). unfold live, pass2, pass1. cbn [fst snd]. split; [|split; [|split]].
  - cbn [pr_begin]. apply time_string. exact FO.
  - cbn [pr_end]. apply time_string. exact SO.
  - exact N.
  - cbn [pr_text]. rewrite !bstr_app. reflexivity.
Qed.
Lemma doc_live : forall lang off nr l ps, code lang -> Forall2 (says lang) l ps -> Forall (in_range off) l ->
  exists qs, adjust_ttml_content (bstr (ttml_doc ps)) off nr = bstr (ttml_doc qs) /\ Forall2 (says_live lang off) l qs.
Proof.
  intros lang off nr l ps L F G. destruct (Forall2_combine _ _ _ _ _ F) as (C & EP & EL). set (z := combine l ps) in *.
  assert (K : Forall (fun x => says lang (fst x) (snd x) /\ in_range off (fst x)) z).
  { rewrite EL in G. rewrite Forall_map in G. apply Forall_and; assumption. }
  exists (map (live lang off) z). split.
  - set (ps1 := map (fun x => pass1 off (fst x) (snd x)) z). set (ps2 := map (live lang off) z).
    assert (S1 : sub_all (match_time off) (bstr (ttml_doc ps)) = bstr (ttml_doc ps1)).
    { apply Sub_all; [reflexivity|]. rewrite !doc_bytes. apply dead_time; [vm_compute; reflexivity|].
      apply pars_sub with (R := fun p q => exists c, says lang c p /\ in_range off c /\ q = pass1 off c p).
      - intros p q rest out (c & S & (A1 & A2 & A3 & A4) & ->) R. eapply pass1_ok; eauto.
      - rewrite EP. apply Forall2_maps. eapply Forall_impl; [|exact K]. intros x (X1 & X2). exists (fst x). auto.
      - rewrite <- (app_nil_r (bstr tmpl_tail)). apply dead_time; [vm_compute; reflexivity|constructor]. }
    assert (S2 : sub_all (match_content off) (bstr (ttml_doc ps1)) = bstr (ttml_doc ps2)).
    { apply Sub_all; [reflexivity|]. rewrite !doc_bytes. apply dead_line; [vm_compute; reflexivity|].
      apply pars_sub with (R := fun p q => exists c p0, says lang c p0 /\ in_range off c /\ p = pass1 off c p0 /\ q = pass2 lang off c p).
      - intros p q rest out (c & p0 & (B & E & N & T) & (A1 & A2 & A3 & A4) & -> & ->) R. apply pass2_ok; auto.
        + eexists. split; [exact A3|]. apply time_string. exact A3.
        + eexists. split; [exact A4|]. apply time_string. exact A4.
      - apply Forall2_maps. eapply Forall_impl; [|exact K]. intros x (X1 & X2). exists (fst x), (snd x). auto.
      - rewrite <- (app_nil_r (bstr tmpl_tail)). apply dead_line; [vm_compute; reflexivity|constructor]. }
    assert (S3 : sub_all (match_segment nr) (bstr (ttml_doc ps2)) = bstr (ttml_doc ps2)).
    { apply Sub_all; [reflexivity|]. rewrite !doc_bytes. apply dead_segment; [vm_compute; reflexivity|].
      apply pars_sub with (R := fun p q => (exists c, says_live lang off c p /\ in_range off c) /\ q = p).
      - intros p q rest out ((c & (B & E & N & T) & (A1 & A2 & A3 & A4)) & ->) R. apply pass3_ok with (lang := lang) (n := fst c); eauto.
      - apply Forall2_maps. eapply Forall_impl; [|exact K]. intros [c p] (X1 & X2). cbn [fst snd] in *. split; [|reflexivity].
        exists c. split; [|exact X2]. apply live_says; auto.
      - rewrite <- (app_nil_r (bstr tmpl_tail)). apply dead_segment; [vm_compute; reflexivity|constructor]. }
    unfold adjust_ttml_content. rewrite S1, S2, S3. reflexivity.
  - rewrite EL. clear - K. induction K as [|[c p] z [X Y] K IH]; cbn [map fst]; constructor; auto. apply live_says; auto.
Qed.

(** ** The paragraphs of a segment *)
Lemma par_says : forall lang r t, 0 <= t -> 0 <= t + r ->
  says lang (t, t + r) (mk_par (create_time_string t) (create_time_string (t + r)) ("sub" ++ pad 5 t) (lang ++ " : " ++ create_time_string t)).
Proof.
  intros lang r t H K. split; [|split; [|split]]; cbn [pr_begin pr_end pr_id pr_text fst snd].
  - apply time_string; auto.
  - apply time_string; auto.
  - exists (pad 5 t). destruct (pad_digits 5 t H) as (A & B & C). auto.
  - rewrite !bstr_app, time_string by auto. reflexivity.
Qed.
Definition slots (time r : Z) (a n : nat) : list (Z * Z) := map (fun k => (time + Z.of_nat k * r, time + Z.of_nat k * r + r)) (seq a n).
Lemma slots_tile : forall time d r n a, 0 < r -> (Z.of_nat (a + n) - 1) * r < d -> d <= Z.of_nat (a + n) * r ->
  tiles (time + Z.of_nat a * r) (time + d) r (slots time r a n).
Proof.
  unfold slots. intros time d r n. induction n as [|n IH]; intros a R L U.
  - cbn [seq map tiles]. rewrite Nat.add_0_r in U. lia.
  - cbn [seq map tiles fst snd]. split; [reflexivity|]. split; [reflexivity|]. split; [nia|].
    replace (time + Z.of_nat a * r + r) with (time + Z.of_nat (S a) * r) by lia. apply IH; [exact R| |];
    rewrite Nat.add_succ_l, <- Nat.add_succ_r; auto.
Qed.
Lemma paragraphs_slots : forall lang d r time, 0 <= time -> 0 < d -> 0 < r ->
  exists l ps, paragraphs lang d r time = Ok ps /\ tiles time (time + d) r l /\ Forall2 (says lang) l ps.
Proof.
  intros lang d r time T D R. unfold paragraphs, range3. destruct (Z.eqb_spec r 0) as [R0|_]; [lia|]. destruct (Z.ltb_spec 0 r) as [_|R0]; [|lia].
  cbn [bind]. set (n := (d + r - 1) / r).
  assert (N : n * r <= d + r - 1 < n * r + r).
  { unfold n. assert (M := Z.div_mod (d + r - 1) r ltac:(lia)). assert (B := Z.mod_pos_bound (d + r - 1) r R). lia. }
  assert (P : 0 < n) by nia.
  exists (slots time r 0 (Z.to_nat n)). eexists. split; [reflexivity|]. split.
  - replace time with (time + Z.of_nat 0 * r) at 1 by lia. apply slots_tile; [exact R| |]; rewrite Nat.add_0_l, Z2Nat.id by lia; nia.
  - unfold slots. rewrite map_map. generalize (seq 0 (Z.to_nat n)). intros q. induction q as [|k q IH]; cbn [map]; constructor; [|exact IH].
    apply par_says; nia.
Qed.
