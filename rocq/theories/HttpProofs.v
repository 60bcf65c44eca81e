(** Lemmas about HttpModel.v. *)
From Coq Require Import ZifyBool ZifyNat.
From Verif Require Import Base BaseProofs BytesModel BytesProofs StrModel ConfigModel ConfigProofs ProxyModel HttpModel HttpSpec
  Mpd2Spec Mpd2Proofs OptionsProofs OptionsTheory SegmentModel ChunkModel MuxModel InitModel.
Local Open Scope string_scope.
Open Scope Z_scope.

(** *** Decimal numbers *)
Lemma digit_value : forall c, digit c -> digit_val c = Some (Z.of_nat (nat_of_ascii c) - 48).
Proof.
  intros c D. unfold digit in D. unfold digit_val.
  destruct (_ && _) eqn:E; [reflexivity|]. lia.
Qed.
Lemma decimal_digits : forall x a, decimal x a -> all_digits x = true /\ x <> "" /\ digits_val x 0 = a.
Proof.
  intros x a D. induction D as [c D|s z c D IH DC].
  - cbn [all_digits digits_val]. rewrite (digit_value c D). split; [reflexivity|split; [discriminate|lia]].
  - destruct IH as (A & N & V). pose proof (digit_value c DC) as E.
    repeat split.
    + rewrite all_digits_app, A. cbn [all_digits]. rewrite E. reflexivity.
    + destruct s; discriminate.
    + rewrite digits_val_app by exact A. rewrite V. cbn [digits_val]. rewrite E. lia.
Qed.
Lemma decimal_int : forall x a, decimal x a -> py_int x = Ok a.
Proof. intros x a D. destruct (decimal_digits x a D) as (A & N & V). rewrite py_int_digits by assumption. rewrite V. reflexivity. Qed.
Lemma decimal_nonneg : forall x a, decimal x a -> 0 <= a.
Proof. intros x a D. induction D as [c D|s z c D IH DC]; unfold digit in *; lia. Qed.

(** Splitting at a character that is not in the text. *)
Definition without (c : ascii) (s : string) : Prop := ~ In c (list_ascii_of_string s).
Lemma split_without : forall c s, without c s -> split_all c s = [s].
Proof.
  intros c s. induction s as [|a s IH]; intros N; cbn [split_all]; [reflexivity|].
  unfold without in *. cbn [list_ascii_of_string In] in N.
  destruct (Ascii.eqb_spec a c); [exfalso; apply N; left; assumption|].
  rewrite IH by tauto. reflexivity.
Qed.
Lemma split_at : forall c s r, without c s -> split_all c (s ++ String c r) = s :: split_all c r.
Proof.
  intros c s. induction s as [|a s IH]; intros r N.
  - cbn [append split_all]. rewrite Ascii.eqb_refl. reflexivity.
  - unfold without in *. cbn [list_ascii_of_string In] in N. change (String a s ++ String c r) with (String a (s ++ String c r)).
    cbn [split_all]. destruct (Ascii.eqb_spec a c); [exfalso; apply N; left; assumption|].
    rewrite IH by tauto. reflexivity.
Qed.
Lemma split_nonempty : forall c s, split_all c s <> [].
Proof. intros c s. induction s as [|a s IH]; cbn [split_all]; [discriminate|]. destruct (Ascii.eqb a c); [discriminate|]. destruct (split_all c s); discriminate. Qed.
Lemma split_two : forall c u s, exists h k l, split_all c (u ++ String c s) = h :: k :: l.
Proof.
  intros c u s. induction u as [|b u IH].
  - cbn [append split_all]. rewrite Ascii.eqb_refl. pose proof (split_nonempty c s).
    destruct (split_all c s) as [|k l]; [contradiction|]. exists "", k, l. reflexivity.
  - change (String b u ++ String c s) with (String b (u ++ String c s)). cbn [split_all].
    destruct IH as (h & k & l & ->). destruct (Ascii.eqb b c); eauto.
Qed.
Lemma split_last : forall c u s d, without c s -> last (split_all c (u ++ String c s)) d = s.
Proof.
  intros c u s d N. induction u as [|a u IH].
  - cbn [append split_all]. rewrite Ascii.eqb_refl. rewrite split_without by exact N. reflexivity.
  - change (String a u ++ String c s) with (String a (u ++ String c s)). cbn [split_all].
    destruct (split_two c u s) as (h & k & l & E). rewrite E in *. destruct (Ascii.eqb a c); exact IH.
Qed.
Lemma digits_without : forall c s, digit_val c = None -> all_digits s = true -> without c s.
Proof.
  intros c s N. induction s as [|a s IH]; intros D I; [destruct I|]. cbn [all_digits list_ascii_of_string In] in *.
  destruct (digit_val a) eqn:E; [|discriminate]. destruct I as [-> | I]; [congruence|exact (IH D I)].
Qed.
Lemma without_app : forall c s t, without c s -> without c t -> without c (s ++ t).
Proof.
  intros c s t A B. unfold without in *. induction s as [|a s IH]; [exact B|].
  change (String a s ++ t) with (String a (s ++ t)). cbn [list_ascii_of_string In] in *. tauto.
Qed.

(** *** Ranges *)
Definition range_text (payload : bytes) (a b : Z) : string :=
  "bytes " ++ print_Z a ++ "-" ++ print_Z b ++ "/" ++ print_Z (blen payload).
Lemma interval_line : forall unit r text, spells r text ->
  split_all "," (last (split_all "=" (unit ++ "=" ++ text)) "") = [text].
Proof.
  intros unit r text S.
  assert (W : forall c, digit_val c = None -> c <> "-"%char -> without c text).
  { intros c D M. assert (H : without c "-") by (unfold without; cbn; intros [X|[]]; congruence).
    inversion S; subst;
      repeat match goal with H : decimal ?x ?a |- _ => apply decimal_digits in H; destruct H as (? & _ & _) end;
      repeat apply without_app; auto using digits_without. }
  change (unit ++ "=" ++ text) with (unit ++ String "=" text).
  rewrite split_last by (apply W; [reflexivity|discriminate]).
  apply split_without. apply W; [reflexivity|discriminate].
Qed.
Lemma slice_part : forall payload a b, 0 <= a -> a <= b -> b < blen payload -> part_of payload a b (py_slice a (b + 1) payload).
Proof.
  intros payload a b A B L. unfold py_slice.
  destruct (Z.ltb_spec a 0); [lia|]. destruct (Z.ltb_spec (b + 1) 0); [lia|].
  unfold part_of, bslice, btake, bdrop, blen in *.
  exists (firstn (Z.to_nat a) payload), (skipn (Z.to_nat (b + 1 - a)) (skipn (Z.to_nat a) payload)).
  split; [rewrite firstn_skipn, firstn_skipn; reflexivity|].
  rewrite !firstn_length, skipn_length. lia.
Qed.
(** What handle_byte_range computes from the two numbers. *)
Definition cut (payload : bytes) (a b : Z) : bytes * option string :=
  if b <? a then (payload, Some "") else (py_slice a (b + 1) payload, Some (range_text payload a b)).
Lemma handle_range : forall unit r text payload, spells r text ->
  handle_byte_range payload (unit ++ "=" ++ text) =
  Ok (match r with
      | Between a b => cut payload a (Z.min b (blen payload - 1))
      | OpenFrom a => cut payload a (blen payload - 1)
      | LastBytes n => cut payload (blen payload - n) (blen payload - 1)
      end).
Proof.
  intros unit r text payload S. unfold handle_byte_range. rewrite (interval_line unit r text S).
  assert (W : forall x, all_digits x = true -> without "-" x) by (intros; apply digits_without; auto).
  inversion S as [a b x y DX DY|a x DX|n y DY]; subst.
  - pose proof (decimal_digits x a DX) as (AX & NX & _). pose proof (decimal_digits y b DY) as (AY & NY & _).
    change (x ++ "-" ++ y) with (x ++ String "-" y). rewrite split_at by auto. rewrite split_without by auto.
    destruct (String.eqb_spec x ""); [contradiction|]. destruct (String.eqb_spec y ""); [contradiction|].
    rewrite (decimal_int x a DX), (decimal_int y b DY). cbn [bind]. unfold cut. destruct (_ <? _); reflexivity.
  - pose proof (decimal_digits x a DX) as (AX & NX & _).
    change (x ++ "-") with (x ++ String "-" ""). rewrite split_at by auto. cbn [split_all].
    destruct (String.eqb_spec x ""); [contradiction|]. cbn [String.eqb].
    rewrite (decimal_int x a DX). cbn [bind]. unfold cut. destruct (_ <? _); reflexivity.
  - pose proof (decimal_digits y n DY) as (AY & NY & _).
    change ("-" ++ y) with ("" ++ String "-" y). rewrite split_at by (unfold without; cbn; tauto). rewrite split_without by auto.
    cbn [String.eqb]. destruct (String.eqb_spec y ""); [contradiction|].
    rewrite (decimal_int y n DY). cbn [bind]. unfold cut. destruct (_ <? _); reflexivity.
Qed.

(** *** Headers *)
Lemma headers_typed : forall n m, 0 <= n ->
  start_headers n [("Content-Type", Some m)] =
  [("Content-Type", Some m); ("Accept-Ranges", Some "bytes"); ("Pragma", Some "no-cache");
   ("Cache-Control", Some "no-cache"); ("Expires", Some "-1"); ("DASH-Live-Simulator", Some server_agent);
   ("Access-Control-Allow-Headers", Some "origin,range,accept-encoding,referer");
   ("Access-Control-Allow-Methods", Some "GET,HEAD,OPTIONS"); ("Access-Control-Allow-Origin", Some "*");
   ("Access-Control-Expose-Headers", Some "Server,range,Content-Length,Content-Range,Date");
   ("Content-Length", Some (print_Z n))].
Proof. intros n m N. unfold start_headers. destruct (Z.leb_spec 0 n); [|lia]. reflexivity. Qed.
Lemma headers_range : forall n m v, 0 <= n ->
  start_headers n (put "Content-Range" v [("Content-Type", Some m)]) =
  [("Content-Type", Some m); ("Content-Range", v); ("Accept-Ranges", Some "bytes"); ("Pragma", Some "no-cache");
   ("Cache-Control", Some "no-cache"); ("Expires", Some "-1"); ("DASH-Live-Simulator", Some server_agent);
   ("Access-Control-Allow-Headers", Some "origin,range,accept-encoding,referer");
   ("Access-Control-Allow-Methods", Some "GET,HEAD,OPTIONS"); ("Access-Control-Allow-Origin", Some "*");
   ("Access-Control-Expose-Headers", Some "Server,range,Content-Length,Content-Range,Date");
   ("Content-Length", Some (print_Z n))].
Proof. intros n m v N. unfold start_headers. destruct (Z.leb_spec 0 n); [|lia]. reflexivity. Qed.
Lemma blen_nonneg : forall b, 0 <= blen b.
Proof. intros. unfold blen. lia. Qed.

(** The default dictionary after some requests. *)
Definition default_headers (n : Z) : headers :=
  [("Accept-Ranges", Some "bytes"); ("Pragma", Some "no-cache");
   ("Cache-Control", Some "no-cache"); ("Expires", Some "-1"); ("DASH-Live-Simulator", Some server_agent);
   ("Access-Control-Allow-Headers", Some "origin,range,accept-encoding,referer");
   ("Access-Control-Allow-Methods", Some "GET,HEAD,OPTIONS"); ("Access-Control-Allow-Origin", Some "*");
   ("Access-Control-Expose-Headers", Some "Server,range,Content-Length,Content-Range,Date");
   ("Content-Length", Some (print_Z n)); ("Content-Type", Some "text/plain")].
Definition usual (h : headers) : Prop := h = [] \/ exists n, h = default_headers n.
Lemma usual_start : forall h n, usual h -> 0 <= n -> start_headers n h = default_headers n.
Proof.
  intros h n [-> | (k & ->)] N; unfold start_headers; (destruct (Z.leb_spec 0 n); [|lia]); reflexivity.
Qed.
Lemma application_usual : forall limit s r now sid h h', usual h -> usual h' ->
  fst (application limit s r now sid h) = fst (application limit s r now sid h') /\ usual (snd (application limit s r now sid h)).
Proof.
  intros limit s r now sid h h' U U'. unfold application, start_reply.
  assert (K : forall b, usual (default_headers (blen b))) by (intros b; right; eexists; reflexivity).
  destruct (limit =? 0); [split; [reflexivity|exact U]|].
  destruct (session_start (path_parts r) None) as [t|].
  - destruct (Qltb _ now); cbn [status_string bind Z.eqb Pos.eqb].
    + rewrite (usual_start h), (usual_start h') by (auto using blen_nonneg). cbn [fst snd]. split; [reflexivity|apply K].
    + destruct (Qltb _ _); cbn [status_string bind Z.eqb Pos.eqb].
      * rewrite (usual_start h), (usual_start h') by (auto using blen_nonneg). cbn [fst snd]. split; [reflexivity|apply K].
      * split; [reflexivity|exact U].
  - destruct (String.eqb _ _); cbn [status_string bind Z.eqb Pos.eqb]; [split; [reflexivity|exact U]|].
    rewrite (usual_start h), (usual_start h') by (auto using blen_nonneg). cbn [fst snd]. split; [reflexivity|apply K].
Qed.
Lemma run_usual : forall limit s history h, usual h -> usual (run limit s history h).
Proof.
  intros limit s history. induction history as [|((r, now), sid) rest IH]; intros h U; cbn [run]; [exact U|].
  apply IH. exact (proj2 (application_usual limit s r now sid h h U U)).
Qed.

(** *** Sessions *)
Lemma starts_drop : forall k s, starts_with k s = true -> s = k ++ drop (String.length k) s.
Proof.
  intros k. induction k as [|a k IH]; intros s H; [reflexivity|]. destruct s as [|b s]; [discriminate|].
  cbn [starts_with] in H. apply andb_prop in H. destruct H as (E & H). apply Ascii.eqb_eq in E. subst b.
  cbn [String.length drop append]. f_equal. apply IH. exact H.
Qed.
Lemma drop_app : forall k s, drop (String.length k) (k ++ s) = s.
Proof. intros k s. induction k as [|a k IH]; [reflexivity|exact IH]. Qed.
Lemma carries_step : forall p t0, 
  (exists t, carries p t /\ (if starts_with "sts_" p then match py_int (drop 4 p) with Ok z => Some z | Err _ => t0 end else t0) = Some t)
  \/ ((forall t, ~ carries p t) /\ (if starts_with "sts_" p then match py_int (drop 4 p) with Ok z => Some z | Err _ => t0 end else t0) = t0).
Proof.
  intros p t0. destruct (starts_with "sts_" p) eqn:S.
  - pose proof (starts_drop _ _ S) as D. cbn [String.length] in D. destruct (py_int (drop 4 p)) as [z|e] eqn:E.
    + left. exists z. split; [exists (drop 4 p); split; assumption|reflexivity].
    + right. split; [|reflexivity]. intros t (x & -> & X).
      change 4%nat with (String.length "sts_") in E. rewrite drop_app in E. congruence.
  - right. split; [|reflexivity]. intros t (x & -> & X). rewrite starts_self in S. discriminate.
Qed.
Lemma session_spec : forall parts t0,
  match session_start parts t0 with
  | Some t => started parts t \/ (unstarted parts /\ t0 = Some t)
  | None => unstarted parts /\ t0 = None
  end.
Proof.
  intros parts. induction parts as [|p parts IH]; intros t0; cbn [session_start].
  - destruct t0; [right|]; split; auto; constructor.
  - destruct (carries_step p t0) as [(t & C & ->) | (N & ->)].
    + specialize (IH (Some t)). destruct (session_start parts (Some t)) as [t'|]; [|destruct IH; discriminate].
      left. destruct IH as [(b & q & a & -> & H) | (U & [= ->])].
      * exists (p :: b), q, a. split; [reflexivity|exact H].
      * exists [], p, parts. split; [reflexivity|]. split; assumption.
    + specialize (IH t0). destruct (session_start parts t0) as [t'|].
      * destruct IH as [(b & q & a & -> & H) | (U & E)].
        -- left. exists (p :: b), q, a. split; [reflexivity|exact H].
        -- right. split; [constructor; assumption|exact E].
      * destruct IH as (U & E). split; [constructor; assumption|exact E].
Qed.
Lemma session_none : forall parts, unstarted parts -> session_start parts None = None.
Proof.
  intros parts U. pose proof (session_spec parts None) as H. destruct (session_start parts None); [|reflexivity].
  destruct H as [(b & p & a & -> & C & _) | (_ & H)]; [|discriminate]. exfalso.
  unfold unstarted in U. rewrite Forall_app in U. destruct U as (_ & U). inversion U as [|? ? U1 U2]; subst. exact (U1 _ C).
Qed.
Lemma session_app : forall a b t0, session_start (a ++ b)%list t0 = session_start b (session_start a t0).
Proof. intros a. induction a as [|p a IH]; intros b t0; [reflexivity|]. cbn [app session_start]. apply IH. Qed.
Lemma session_skip : forall parts t0, unstarted parts -> session_start parts t0 = t0.
Proof.
  intros parts. induction parts as [|p parts IH]; intros t0 U; [reflexivity|]. inversion U as [|? ? U1 U2]; subst.
  cbn [session_start]. destruct (carries_step p t0) as [(t & C & _) | (_ & ->)]; [exfalso; exact (U1 _ C)|]. apply IH. exact U2.
Qed.
Lemma session_some : forall parts t, started parts t -> session_start parts None = Some t.
Proof.
  intros parts t (b & p & a & -> & (x & -> & X) & N). rewrite session_app. cbn [session_start].
  rewrite starts_self. change (drop 4 ("sts_" ++ x)) with x. rewrite X. apply session_skip. exact N.
Qed.

(** *** Two parts more in front of the path *)
Lemma url_loop_pos : forall now parts u p1 p2 k,
  match url_loop now parts u p1 with
  | Ok (u', q) => (p1 <= q)%nat /\ (q <= p1 + List.length parts)%nat /\ (p2 = p1 + k -> url_loop now parts u p2 = Ok (u', (q + k)%nat))%nat
  | Err e => url_loop now parts u p2 = Err e
  end.
Proof.
  intros now parts. induction parts as [|p parts IH]; intros u p1 p2 k; cbn [url_loop List.length].
  - repeat split; try lia. intros ->. reflexivity.
  - destruct (split_first "_" p) as [(key, value)|].
    + destruct (str_in key url_cfg_keys).
      * destruct (url_option now key value u) as [u'|e]; cbn [bind]; [|reflexivity].
        specialize (IH u' (S p1) (S p2) k). destruct (url_loop now parts u' (S p1)) as [(u2, q)|e]; [|exact IH].
        destruct IH as (A & B & C). repeat split; try lia. intros ->. apply C. lia.
      * repeat split; try lia. intros ->. reflexivity.
    + destruct (str_in p url_cfg_keys); [reflexivity|]. repeat split; try lia. intros ->. reflexivity.
Qed.
Lemma py_nth_cons : forall A (a : A) l n, py_nth (a :: l) (S n) = py_nth l n.
Proof. reflexivity. Qed.
Lemma session_parts : forall now x y parts u p,
  url_loop now (("sts_" ++ x) :: ("sid_" ++ y) :: parts) u p = url_loop now parts u (S (S p)).
Proof. reflexivity. Qed.
Lemma session_config : forall read base x y parts now,
  match process_url read base parts now with
  | Ok c => exists b, process_url read base (("sts_" ++ x) :: ("sid_" ++ y) :: parts) now = Ok (set_base_url b c)
  | Err e => process_url read base (("sts_" ++ x) :: ("sid_" ++ y) :: parts) now = Err e
  end.
Proof.
  intros read base x y parts now. unfold process_url. rewrite session_parts.
  pose proof (url_loop_pos now parts (ustate_init base) 0 2 2) as L.
  destruct (url_loop now parts (ustate_init base) 0) as [(u, q)|e]; cbn [bind].
  2: { rewrite L. reflexivity. }
  destruct L as (_ & _ & L). rewrite (L eq_refl). clear L. cbn [bind].
  replace (q + 2)%nat with (S (S q)) by lia.
  unfold update_with_filedata. rewrite !py_nth_cons.
  destruct (py_nth parts q) as [name|e] eqn:N; cbn [bind]; [|reflexivity].
  assert (P : exists p0 rest, parts = p0 :: rest).
  { destruct parts as [|p0 rest]; [destruct q; discriminate|]. exists p0, rest. reflexivity. }
  destruct P as (p0 & rest & P).
  assert (La : forall a b, py_last (a :: b :: parts) = py_last parts) by (intros a b; rewrite P; reflexivity).
  rewrite La. destruct (py_last parts) as [fn|e]; cbn [bind]; [|reflexivity].
  change (skipn (S (S (S q))) (("sts_" ++ x) :: ("sid_" ++ y) :: parts)) with (skipn (S q) parts).
  set (b2 := (c_base_url (u_cfg u) ++ join "/" (firstn (S (S (S q))) (("sts_" ++ x) :: ("sid_" ++ y) :: parts)) ++ "/")%string).
  set (b1 := (c_base_url (u_cfg u) ++ join "/" (firstn (S q) parts) ++ "/")%string).
  set (rel := join "/" (py_init (skipn (S q) parts))).
  change (c_content_name (set_ext (snd (splitext fn)) (set_filename fn (set_rel_path rel (set_base_url b2 (set_content_name name (u_cfg u))))))) with name.
  change (c_content_name (set_ext (snd (splitext fn)) (set_filename fn (set_rel_path rel (set_base_url b1 (set_content_name name (u_cfg u))))))) with name.
  destruct (read name) as [v|e]; cbn [bind]; [|reflexivity].
  set (c1 := set_ext (snd (splitext fn)) (set_filename fn (set_rel_path rel (set_base_url b1 (set_content_name name (u_cfg u)))))).
  set (c2 := set_ext (snd (splitext fn)) (set_filename fn (set_rel_path rel (set_base_url b2 (set_content_name name (u_cfg u)))))).
  change (u_setcfg (fun _ => c2) u) with (u_setcfg (set_base_url b2) (u_setcfg (fun _ => c1) u)).
  assert (F : forall u, finish_url now (("sts_" ++ x) :: ("sid_" ++ y) :: parts) (S (S q)) v u = finish_url now parts q v u).
  { clear - P. intros u. unfold finish_url. 
    assert (R : update_with_reps (u_cfg u) v (("sts_" ++ x) :: ("sid_" ++ y) :: parts) (S (S q)) = update_with_reps (u_cfg u) v parts q).
    { unfold update_with_reps. cbn [List.length].
      change (Nat.ltb (S (S q) + 2) (S (S (List.length parts)))) with (Nat.ltb (q + 2) (List.length parts)).
      destruct (Nat.ltb_spec (q + 2) (List.length parts)) as [G|G]; [|reflexivity].
      replace (S (S (List.length parts)) - 2)%nat with (S (S (List.length parts - 2)))%nat by lia.
      rewrite !py_nth_cons. reflexivity. }
    rewrite R. reflexivity. }
  rewrite F, b_finish. destruct (finish_url now parts q v _) as [c|e]; [exists b2|]; reflexivity.
Qed.

(** *** The base URL is not used for media *)
Lemma plain_base : forall b files c sv now, plain_segment files (set_base_url b c) sv now = plain_segment files c sv now.
Proof. reflexivity. Qed.
Lemma filter_base : forall b files c r rel sv d now, filter_media_segment files (set_base_url b c) r rel sv d now = filter_media_segment files c r rel sv d now.
Proof. reflexivity. Qed.
Lemma chunked_base : forall b files i c sv now, chunked_segment files i (set_base_url b c) sv now = chunked_segment files i c sv now.
Proof. reflexivity. Qed.
Lemma content_base : forall b s c sv chunk now, media_content s (set_base_url b c) sv chunk now = media_content s c sv chunk now.
Proof. reflexivity. Qed.
Lemma media_base : forall b s c chunk now sv, get_media c now = Ok (Serve sv) ->
  media_response s (set_base_url b c) chunk now = media_response s c chunk now.
Proof.
  intros b s c chunk now sv H. unfold media_response. rewrite get_media_base, H. cbn [bind]. rewrite content_base. reflexivity.
Qed.
(** A reply that is not a refusal. *)
Definition given (r : response) : Prop := match r with RError _ => False | _ => True end.
Lemma media_given : forall b s c chunk now x, given x ->
  (media_response s c chunk now = Ok x <-> media_response s (set_base_url b c) chunk now = Ok x).
Proof.
  intros b s c chunk now x G. unfold media_response. rewrite get_media_base.
  destruct (get_media c now) as [[why|sv]|e]; cbn [bind]; try (split; discriminate).
  - split; intros [= <-]; destruct G.
  - rewrite content_base. reflexivity.
Qed.
Lemma init_given : forall b s c now x, given x ->
  (init_response s c now = Ok x <-> init_response s (set_base_url b c) now = Ok x).
Proof.
  intros b s c now x G. unfold init_response. change (get_init (set_base_url b c) now) with (get_init c now).
  change (c_reps (set_base_url b c)) with (c_reps c). change (c_content_name (set_base_url b c)) with (c_content_name c).
  change (c_rel_path (set_base_url b c)) with (c_rel_path c). change (c_filename (set_base_url b c)) with (c_filename c).
  destruct (get_init c now) as [[|]|e]; cbn [bind]; try reflexivity.
  - destruct (c_reps c) as [|r1 [|r2 [|r3 l]]]; try reflexivity; split; intros [= <-]; destruct G.
  - split; intros [= <-]; destruct G.
Qed.

(** *** Paths *)
Lemma no_slash_app : forall a b, no_slash a -> no_slash b -> no_slash (a ++ b).
Proof.
  intros a b. unfold no_slash. induction a as [|x a IH]; intros A B; [exact B|].
  change (String x a ++ b) with (String x (a ++ b)). cbn [list_ascii_of_string In] in *. intros [E|I]; [tauto|].
  apply IH in I; tauto.
Qed.
Lemma split_slash : forall r, split_all "/" ("/" ++ r) = "" :: split_all "/" r.
Proof. reflexivity. Qed.
Lemma session_split : forall t sid p p', no_slash sid -> session_path t sid p p' ->
  exists first rest, split_all "/" p = "" :: first :: rest /\
    split_all "/" p' = "" :: first :: ("sts_" ++ print_Z t) :: ("sid_" ++ sid) :: rest.
Proof.
  intros t sid p p' N H.
  assert (A : no_slash ("sts_" ++ print_Z t)) by (apply number_no_slash; unfold no_slash; cbn; intuition discriminate).
  assert (B : no_slash ("sid_" ++ sid)) by (apply no_slash_app; [unfold no_slash; cbn; intuition discriminate|exact N]).
  destruct H as [first rest F|first F]; exists first.
  - exists (split_all "/" rest). rewrite !split_slash, split_app_slash by exact F. split; [reflexivity|].
    change (first ++ "/sts_" ++ print_Z t ++ "/sid_" ++ sid ++ "/" ++ rest)
      with (first ++ "/" ++ "sts_" ++ print_Z t ++ "/" ++ "sid_" ++ sid ++ "/" ++ rest).
    rewrite split_app_slash by exact F. rewrite <- (string_app_assoc "sts_"). rewrite split_app_slash by exact A.
    rewrite <- (string_app_assoc "sid_"). rewrite split_app_slash by exact B. reflexivity.
  - exists []. rewrite !split_slash, split_no_slash by exact F. split; [reflexivity|].
    change (first ++ "/sts_" ++ print_Z t ++ "/sid_" ++ sid) with (first ++ "/" ++ "sts_" ++ print_Z t ++ "/" ++ "sid_" ++ sid).
    rewrite split_app_slash by exact F. rewrite <- (string_app_assoc "sts_"). rewrite split_app_slash by exact A.
    rewrite split_no_slash by exact B. reflexivity.
Qed.
Lemma join_split : forall s, join "/" (split_all "/" s) = s.
Proof.
  intros s. induction s as [|a s IH]; [reflexivity|]. cbn [split_all].
  pose proof (split_nonempty "/" s) as NE. destruct (split_all "/" s) as [|h l]; [contradiction|].
  destruct (Ascii.eqb_spec a "/") as [->|N].
  - change (join "/" ("" :: h :: l)) with ("/" ++ join "/" (h :: l)). rewrite IH. reflexivity.
  - rewrite join_tails in *. change (String a h ++ tails l) with (String a (h ++ tails l)). rewrite IH. reflexivity.
Qed.
Lemma split_parts_no_slash : forall s, Forall no_slash (split_all "/" s).
Proof.
  intros s. induction s as [|a s IH]; [repeat constructor; intros []|]. cbn [split_all].
  destruct (Ascii.eqb_spec a "/") as [->|N]; [constructor; [intros []|exact IH]|].
  destruct (split_all "/" s) as [|h l]; [repeat constructor; unfold no_slash; cbn; intuition congruence|].
  inversion IH as [|? ? I1 I2]; subst. constructor; [|exact I2]. unfold no_slash in *. cbn [list_ascii_of_string In]. intuition congruence.
Qed.
(** The inserted path is a session path. *)
Lemma inserted_path : forall t sid q,
  session_path t sid ("/" ++ q)
    (join "/" (List.app (firstn 2 (split_all "/" ("/" ++ q)))
       (("sts_" ++ print_Z t) :: ("sid_" ++ sid) :: skipn 2 (split_all "/" ("/" ++ q))))).
Proof.
  intros t sid q. rewrite split_slash. pose proof (split_nonempty "/" q) as NE.
  pose proof (join_split q) as J. pose proof (split_parts_no_slash q) as F.
  destruct (split_all "/" q) as [|first rest]; [contradiction|]. pose proof (Forall_inv F) as F1.
  cbn [firstn skipn List.app]. destruct rest as [|x rest].
  - cbn [join] in *. rewrite <- J. apply se_flat. exact F1.
  - rewrite <- J. pose proof (se_deep t sid first (join "/" (x :: rest)) F1) as H. 
    cbn [join append] in *. rewrite ?string_app_assoc. cbn [append] in *. exact H.
Qed.
