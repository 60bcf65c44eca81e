From Verif Require Import Base BaseProofs BytesModel BytesProofs TimeModel TimeProofs TtmlModel TtmlSpec TtmlTheory LangModel LangTheory
  StppModel StppSpec StppProofs.
Open Scope Z_scope.

Lemma tiles_in : forall l a b r, 0 < r -> tiles a b r l ->
  Forall (fun c => a <= fst c < b /\ snd c = fst c + r) l.
Proof.
  induction l as [|c l IH]; intros a b r R T; [constructor|]. cbn [tiles] in T. destruct T as (F & S & L & T).
  constructor; [lia|]. eapply Forall_impl; [|exact (IH _ _ _ R T)]. cbv beta. lia.
Qed.
Lemma tiles_on : forall l a q r, 0 < r -> tiles a (a + q * r) r l ->
  forall t, (exists c, In c l /\ on c t) <-> a <= t < a + q * r.
Proof.
  induction l as [|c l IH]; intros a q r R T t.
  - cbn [tiles] in T. split; [intros (c & [] & _)|nia].
  - cbn [tiles] in T. destruct T as (F & S & L & T). replace (a + q * r) with (a + r + (q - 1) * r) in T by lia.
    specialize (IH _ _ _ R T t). assert (1 <= q) by nia. split.
    + intros (c' & [<-|I] & O); [unfold on in O; nia|]. destruct IH as [IH _].
      assert (K : a + r <= t < a + r + (q - 1) * r) by (apply IH; exists c'; auto). nia.
    + intros K. destruct (Z.lt_ge_cases t (a + r)) as [X|X].
      * exists c. split; [left; reflexivity|]. unfold on. lia.
      * destruct IH as [_ IH]. destruct IH as (c' & I & O); [nia|]. exists c'. split; [right; exact I|exact O].
Qed.
Lemma tiles_one : forall l a b r, 0 < r -> tiles a b r l ->
  forall c1 c2 t, In c1 l -> In c2 l -> on c1 t -> on c2 t -> c1 = c2.
Proof.
  induction l as [|c l IH]; intros a b r R T c1 c2 t I1 I2 O1 O2; [destruct I1|].
  cbn [tiles] in T. destruct T as (F & S & L & T). assert (G := tiles_in _ _ _ _ R T). rewrite Forall_forall in G.
  unfold on in *. destruct I1 as [<-|I1], I2 as [<-|I2].
  - reflexivity.
  - apply G in I2. lia.
  - apply G in I1. lia.
  - eapply IH; eauto.
Qed.

(** ** C85 *)
(** The cues of a segment follow each other from its start on, and each
    paragraph gives begin, end, name and visible text of its cue. *)
Lemma C85_cues_partial_pf : forall lang d r time, 0 <= time -> 0 < d -> 0 < r ->
  exists l ps, paragraphs lang d r time = Ok ps /\ tiles time (time + d) r l /\ Forall2 (says lang) l ps.
Proof. exact paragraphs_slots. Qed.

(** When the cue length divides the segment duration: at each instant exactly
    one cue of exactly one segment is on. *)
Lemma C85_cover_partial_pf : forall lang d r q k, 0 < r -> 0 < q -> d = q * r -> 0 <= k ->
  exists l ps, paragraphs lang d r (k * d) = Ok ps /\ Forall2 (says lang) l ps /\
    (forall t, (exists c, In c l /\ on c t) <-> t / d = k) /\
    (forall c1 c2 t, In c1 l -> In c2 l -> on c1 t -> on c2 t -> c1 = c2).
Proof.
  intros lang d r q k R Q D K. assert (DP : 0 < d) by nia.
  destruct (paragraphs_slots lang d r (k * d)) as (l & ps & P & T & S); [nia|lia|lia|].
  exists l, ps. split; [exact P|]. split; [exact S|]. split; [|exact (tiles_one _ _ _ _ R T)].
  intros t. assert (T' : tiles (k * d) (k * d + q * r) r l) by (rewrite <- D; exact T). rewrite (tiles_on l (k * d) q r R T' t). rewrite <- D. split.
  - intros H. symmetry. apply Z.div_unique with (t - k * d); lia.
  - intros <-. assert (M := Z.div_mod t d ltac:(lia)). assert (B := Z.mod_pos_bound t d DP). lia.
Qed.

(** What a session sends of a generated document: the same document with all
    cues moved by the time offset, and the UTC time as visible text. *)
Lemma C85_live_partial_pf : forall lang d r time off nr, code lang -> 0 <= time -> 0 < d -> 0 < r ->
  time + d + r <= 360000000 -> 0 <= time + 1000 * off ->
  exists l ps qs, paragraphs lang d r time = Ok ps /\ tiles time (time + d) r l /\
    adjust_ttml_content (bstr (ttml_doc ps)) off nr = bstr (ttml_doc qs) /\ Forall2 (says_live lang off) l qs.
Proof.
  intros lang d r time off nr L T D R M O. destruct (paragraphs_slots lang d r time T D R) as (l & ps & P & TI & S).
  destruct (doc_live lang off nr l ps L S) as (qs & A & Q).
  - eapply Forall_impl; [|exact (tiles_in _ _ _ _ R TI)]. unfold in_range. cbv beta. lia.
  - exists l, ps, qs. auto.
Qed.

Example C85_cues_case : 0 <= 6000 /\ 0 < 2000 /\ 0 < 1000 /\ (2000 = 2 * 1000) /\ code "swe" /\ 6000 + 2000 + 1000 <= 360000000 /\
  tiles 6000 8000 1000 [(6000, 7000); (7000, 8000)] /\
  paragraphs "swe" 2000 1000 6000 =
    Ok [mk_par "00:00:06.000" "00:00:07.000" "sub06000" "swe : 00:00:06.000";
        mk_par "00:00:07.000" "00:00:08.000" "sub07000" "swe : 00:00:07.000"] /\
  adjust_ttml_content (bstr (ttml_doc [mk_par "00:00:06.000" "00:00:07.000" "sub06000" "swe : 00:00:06.000"])) 1234567890 3 =
    bstr (ttml_doc [mk_par "342935:31:36.000" "342935:31:37.000" "sub06000" "swe : UTC = 2009-02-13T23:31:36Z"]).
Proof.
  split; [lia|]. split; [lia|]. split; [lia|]. split; [reflexivity|]. split.
  { exists 115, 119, 101. unfold small. split; [reflexivity|lia]. }
  split; [lia|]. split; [cbn [tiles fst snd]; lia|]. split; [vm_compute; reflexivity|vm_compute; reflexivity].
Qed.

(** Finding: a cue length that does not divide the segment duration makes the
    last cue of a segment run into the next, whose first cue is on as well. *)
Lemma C85_overlap_refuted_pf : exists lang d r c1 c2 ps1 ps2 p1 p2 t, code lang /\ 0 < r < d /\
  paragraphs lang d r 0 = Ok ps1 /\ paragraphs lang d r d = Ok ps2 /\ In p1 ps1 /\ In p2 ps2 /\
  says lang c1 p1 /\ says lang c2 p2 /\ c1 <> c2 /\ on c1 t /\ on c2 t.
Proof.
  exists "eng"%string, 1500, 1000, (1000, 2000), (1500, 2500). do 2 eexists.
  exists (mk_par "00:00:01.000" "00:00:02.000" "sub01000" "eng : 00:00:01.000"),
         (mk_par "00:00:01.500" "00:00:02.500" "sub01500" "eng : 00:00:01.500"), 1700.
  split; [exists 101, 110, 103; unfold small; split; [reflexivity|lia]|]. split; [lia|].
  split; [vm_compute; reflexivity|]. split; [vm_compute; reflexivity|].
  split; [right; left; reflexivity|]. split; [left; reflexivity|].
  split; [exact (par_says "eng" 1000 1000 ltac:(lia) ltac:(lia))|].
  split; [exact (par_says "eng" 1000 1500 ltac:(lia) ltac:(lia))|].
  split; [discriminate|]. unfold on. cbn [fst snd]. lia.
Qed.

(** Finding: from 100 hours on the documents are sent as they are stored. *)
Lemma C85_hundred_hours_refuted_pf : exists lang d r time off nr ps, code lang /\ 0 < off /\ 0 <= time /\ 0 < r /\ d = 2 * r /\
  paragraphs lang d r time = Ok ps /\ adjust_ttml_content (bstr (ttml_doc ps)) off nr = bstr (ttml_doc ps).
Proof.
  exists "eng"%string, 2000, 1000, 360000000, 60, 5. eexists.
  split; [exists 101, 110, 103; unfold small; split; [reflexivity|lia]|]. split; [lia|]. split; [lia|]. split; [lia|]. split; [lia|].
  split; [vm_compute; reflexivity|]. vm_compute. reflexivity.
Qed.

(** Finding: the documents say English whatever the language is. *)
Lemma C85_language_refuted_pf : exists lang d r time ps, code lang /\ lang <> "eng"%string /\
  paragraphs lang d r time = Ok ps /\ ps <> [] /\ exists u v, bstr (ttml_doc ps) = u ++ bstr "xml:lang=""en"" " ++ v.
Proof.
  exists "swe"%string, 1000, 1000, 0. eexists.
  split; [exists 115, 119, 101; unfold small; split; [reflexivity|lia]|]. split; [discriminate|].
  split; [vm_compute; reflexivity|]. split; [discriminate|].
  match goal with |- exists u v, ?b = _ => exists (firstn 291 b), (skipn (291 + 14) b) end. vm_compute. reflexivity.
Qed.

(** Finding: under Python 3 the tool writes no segment, whatever is asked for. *)
Lemma C85_no_output_refuted_pf : exists number d r lang, code lang /\ 0 < number /\ 0 < r /\ d = 2 * r /\
  forall imore mmore irest rest files, create_segments imore mmore irest rest lang number d r <> Ok files.
Proof.
  exists 3, 2000, 1000, "eng"%string. split; [exists 101, 110, 103; unfold small; split; [reflexivity|lia]|].
  split; [lia|]. split; [lia|]. split; [lia|]. intros. unfold create_segments.
  destruct (C52_creators_fail_pf imore irest) as [-> _]. discriminate.
Qed.
