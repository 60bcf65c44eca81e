(** Remote periods: property C59. *)
From Coq Require Import ZifyBool ZifyNat Znumtheory.
From Verif Require Import Base BaseProofs ConfigModel StrModel PeriodModel PeriodTheory MpdModel MpdTheory XlinkModel XlinkSpec XlinkProofs XlinkProofs2
  XlinkProofs3 XlinkProofs4 XlinkProofs5 XlinkProofs6 XlinkProofs7 XlinkProofs8.
Local Open Scope string_scope.
Open Scope Z_scope.

(** ** C59: exactly the selected periods are replaced.  The full statement is
    about all manifests.  Here the manifest is as the writer of the live
    manifest expects it: the id is the first attribute of a Period and is not
    mentioned before it in the document, and there is one BaseURL, without
    attributes (C59_mentioned_refuted, C59_base_refuted and C59_two_bases_refuted show that
    these are needed).  With ads the periods that stay are not delivered
    unchanged: an AssetIdentifier is put in (C59_ads_refuted). *)
Lemma C59_replaced_partial_pf : forall c e source now x base,
  let n := Z.min (c_pph c) 60 in let m := Z.min (c_xlink c) 60 in let ad := c_insert_ad c in
  get_mpd c e source now = Ok x -> c_ext c = ".mpd" -> 0 < c_xlink c -> 0 < c_pph c ->
  manifest_ready x ->
  (forall y k, In y (x_kids x) -> period_nr y k -> lacks (escape false base ++ c_filename c) ("p" ++ print_Z k)) ->
  (1 <= ad <= 5 \/ one_base x base) ->
  (m | n)
  /\ exists outs, get_mpd_text c e source now = Ok (manifest_text x outs)
  /\ List.length outs = List.length (x_kids x)
  /\ forall i y o, nth_error (x_kids x) i = Some y -> nth_error outs i = Some o ->
     (child_linked ad (n / m) (x_kids x) i -> forall k, period_nr y k -> o = link_text ad (escape false base) (c_filename c) k y)
     /\ (~ child_linked ad (n / m) (x_kids x) i -> o = if (x_tag y =? "Period")%string && (0 <? ad) then asset_text y else write_xml y).
Proof.
  intros c e source now x base n m ad G X L P R M B.
  assert (D : (m | n)).
  { unfold get_mpd in G. apply bind_ok in G. destruct G as (u & G & _). revert G. unfold mpd_option_checks. fold m n. cbv zeta.
    destruct (Z.ltb_spec 0 m); [|lia]. cbn [andb]. destruct (n =? -1); [discriminate|]. destruct (Z.eqb_spec (n mod m) 0) as [Z0|]; [|discriminate].
    intros _. apply Z.mod_divide; [lia|exact Z0]. }
  split; [exact D|]. assert (m <= n) by (apply Z.divide_pos_le; [lia|exact D]).
  destruct (manifest_ok x base (c_filename c) n m ad ltac:(lia) R M B) as (outs & E & O).
  exists outs. split; [|exact O]. unfold get_mpd_text. rewrite G. cbn [bind]. fold n m ad. destruct (Z.ltb_spec 0 m); [|lia]. rewrite X. exact E.
Qed.

(** A request for the link of a period returns the period, with the namespace
    of the manifest declared on it.  The request differs from that for the
    manifest only in the last part of its URL; [u] is the new URL. *)
Lemma C59_resolve_partial_pf : forall c e source now x y k u,
  get_mpd c e source now = Ok x -> 0 < c_xlink c -> c_add_loc c = false -> manifest_ready x -> lacks (c_filename c) "+" ->
  In y (x_kids x) -> period_nr y k ->
  get_mpd_text (set_ext ".period" (set_filename (c_filename c ++ "+p" ++ print_Z k ++ ".period") c))
      (mk_menv u (me_head_url e) (me_wall e) (me_tables e)) source now
  = Ok (write_xml (Elem "Period" (x_attrs y ++ [("xmlns", "urn:mpeg:dash:schema:mpd:2011")]) (x_text y) (x_kids y))).
Proof.
  intros c e source now x y k u G L A R N Y K. unfold get_mpd_text. rewrite mpd_same, url_same, G by exact A. cbn [bind].
  set (c' := set_ext _ _). change (c_xlink c') with (c_xlink c). change (c_ext c') with ".period".
  change (c_filename c') with (c_filename c ++ "+" ++ "p" ++ print_Z k ++ ".period").
  destruct (Z.ltb_spec 0 (Z.min (c_xlink c) 60)); [|lia].
  exact (resolve_ok x y k (c_filename c) R Y K N).
Qed.

(** *** Checks for the examples *)
Definition lack_b (s p : string) : bool := match find p s with None => true | Some _ => false end.
Lemma lack_b_ok : forall s p, lack_b s p = true -> lacks s p.
Proof. intros s p. unfold lack_b. destruct (find p s) eqn:E; [discriminate|]. intros _. apply find_none. exact E. Qed.
Fixpoint all_b (f : string -> list (string * string) -> string -> bool) (x : xml) : bool :=
  let 'Elem t a s k := x in f t a s && forallb (all_b f) k.
Lemma all_b_ok : forall (f : string -> list (string * string) -> string -> bool) (P : string -> list (string * string) -> string -> Prop),
  (forall t a s, f t a s = true -> P t a s) -> forall x, all_b f x = true -> all_elems P x.
Proof.
  intros f P H x. induction x as [t a s k IH] using xml_ind2. cbn [all_b all_elems]. intros E. apply andb_prop in E. destruct E as (E1 & E2).
  split; [apply H; exact E1|]. clear E1. induction IH as [|y k Y IHk IH2]; [exact I|]. cbn [forallb] in E2. apply andb_prop in E2. destruct E2 as (E2 & E3). cbn [fold_right]. auto.
Qed.
Definition plain_b (s : string) : bool := lack_b s "<" && lack_b s ">" && lack_b s "/" && lack_b s " ".
Lemma plain_b_ok : forall s, plain_b s = true -> plain_name s.
Proof. intros s H. unfold plain_b in H. repeat (apply andb_prop in H; destruct H as (H & ?)). repeat split; apply lack_b_ok; assumption. Qed.
Lemma forallb_F : forall {A} (f : A -> bool) (P : A -> Prop) l, (forall x, f x = true -> P x) -> forallb f l = true -> Forall P l.
Proof. intros A f P l H E. rewrite Forall_forall. rewrite forallb_forall in E. auto. Qed.
Definition names_b : xml -> bool := all_b (fun t a _ => plain_b t && forallb (fun kv => plain_b (fst kv)) a).
Definition nameless_b (n : string) : xml -> bool := all_b (fun t _ _ => negb (t =? n)%string).
Definition silent_b (w : string) : xml -> bool := all_b (fun t a s => lack_b t w && forallb (fun kv => lack_b (fst kv) w && lack_b (snd kv) w) a && lack_b s w).
Lemma names_b_ok : forall x, names_b x = true -> names_plain x.
Proof.
  apply all_b_ok. intros t a _ H. apply andb_prop in H. destruct H as (H1 & H2). split; [apply plain_b_ok; exact H1|].
  revert H2. apply forallb_F. intros kv. apply plain_b_ok.
Qed.
Lemma nameless_b_ok : forall n x, nameless_b n x = true -> nameless n x.
Proof. intros n. apply all_b_ok. intros t _ _ H E. subst. rewrite String.eqb_refl in H. discriminate. Qed.
Lemma silent_P : forall w t a s, lack_b t w && forallb (fun kv => lack_b (fst kv) w && lack_b (snd kv) w) a && lack_b s w = true -> silent w t a s.
Proof.
  intros w t a s H. apply andb_prop in H. destruct H as (H & H3). apply andb_prop in H. destruct H as (H1 & H2).
  split; [apply lack_b_ok; exact H1|]. split; [|apply lack_b_ok; exact H3]. revert H2. apply forallb_F. intros kv K. apply andb_prop in K. destruct K. split; apply lack_b_ok; assumption.
Qed.
Definition period_b (n : Z) (y : xml) : bool :=
  match y with
  | Elem _ (("id", i) :: _) s k => (i =? "p" ++ print_Z n)%string && negb ((s =? "")%string && match k with [] => true | _ => false end) && forallb (nameless_b "Period") k
  | _ => false
  end.
Lemma period_b_ok : forall n y, x_tag y = "Period" -> period_b n y = true -> period_ready y.
Proof.
  intros n [t [|(i, v) a] s k] T H; [discriminate|]. cbn [x_tag] in T. subst t. unfold period_b in H.
  assert (I : i = "id").
  { repeat match type of H with (match ?z with _ => _ end = true) => destruct z; try discriminate H end. reflexivity. }
  subst i. apply andb_prop in H. destruct H as (H & H3). apply andb_prop in H. destruct H as (H1 & H2).
  apply String.eqb_eq in H1. subst v. exists n, a, s, k. split; [reflexivity|]. split.
  - destruct (String.eqb_spec s "") as [-> |]; [|left; assumption]. destruct k; [discriminate|right; discriminate].
  - revert H3. apply forallb_F. apply nameless_b_ok.
Qed.
(** every period is not mentioned by the ones before *)
Fixpoint order_b (k1 : list xml) (ok : string -> bool) (l : list xml) : bool :=
  match l with
  | [] => true
  | y :: r => (negb (x_tag y =? "Period")%string || match get "id" y with Some i => ok i && forallb (silent_b i) k1 | None => true end) && order_b (k1 ++ [y]) ok r
  end.
Lemma order_b_ok : forall ok l k0, order_b k0 ok l = true ->
  forall k1 y k2 id, l = (k1 ++ y :: k2)%list -> x_tag y = "Period" -> get "id" y = Some id -> ok id = true /\ Forall (unmentioned id) (k0 ++ k1).
Proof.
  intros ok l. induction l as [|z l IH]; intros k0 H k1 y k2 id E T G; [destruct k1; discriminate|]. cbn [order_b] in H. apply andb_prop in H. destruct H as (H1 & H2).
  destruct k1 as [|w k1]; cbn [List.app] in E; injection E as -> ->.
  - rewrite T, G in H1. cbn in H1. apply andb_prop in H1. destruct H1 as (H1 & H3). split; [exact H1|]. rewrite app_nil_r. revert H3. apply forallb_F.
    intros x. apply all_b_ok. apply silent_P.
  - destruct (IH (k0 ++ [w])%list H2 k1 y k2 id eq_refl T G) as (A & B). split; [exact A|]. rewrite <- app_assoc in B. exact B.
Qed.
Definition nr_b (x : xml) : Z := match get "id" x with Some i => match py_int (drop 1 i) with Ok z => z | Err _ => 0 end | None => 0 end.
Definition manifest_b (x : xml) : bool :=
  let 'Elem t a s kids := x in
  (t =? "MPD")%string && names_b x && negb (match kids with [] => true | _ => false end)
  && forallb (fun y => if (x_tag y =? "Period")%string then period_b (nr_b y) y else nameless_b "Period" y) kids
  && order_b [] (fun i => lack_b "MPD" i && forallb (fun kv => lack_b (fst kv) i && lack_b (snd kv) i) a && lack_b s i) kids.
Lemma manifest_b_ok : forall x, manifest_b x = true -> manifest_ready x.
Proof.
  intros [t a s kids] H. unfold manifest_b in H. repeat (apply andb_prop in H; destruct H as (H & ?)). apply String.eqb_eq in H. subst t.
  exists a, s, kids. split; [reflexivity|]. split; [apply names_b_ok; assumption|]. split; [destruct kids; [discriminate|discriminate]|]. split.
  - match goal with K : forallb _ kids = true |- _ => revert K end. apply forallb_F. intros y. destruct (String.eqb_spec (x_tag y) "Period") as [T|T]; intros K; split; intros; try contradiction.
    + apply (period_b_ok (nr_b y)); assumption.
    + apply nameless_b_ok. assumption.
  - intros k1 y k2 id E T G. match goal with K : order_b _ _ _ = true |- _ => destruct (order_b_ok _ _ _ K k1 y k2 id E T G) as (A & B) end.
    split; [apply silent_P; exact A|exact B].
Qed.
Definition ex_kid (x : xml) (i : nat) : xml := nth i (x_kids x) (Elem "" [] "" []).
Definition ex_x (opts : list string) (now : Z) : xml := match ex_live opts now with Ok x => x | Err _ => Elem "" [] "" [] end.
Definition ex_text (opts : list string) (now : Z) : result string := get_mpd_text (ex_mpd opts now) (ex_env opts) ex_source now.
(** two periods; the second, p10000, is a link *)
Example ex_C59_replaced :
  let o := ["periods_60"; "xlink_30"; "tsbd_30"] in
  let c := ex_mpd o 600000 in let x := ex_x o 600000 in
  let base := "http://h/livesim/periods_60/xlink_30/tsbd_30/testpic/" in
  get_mpd c (ex_env o) ex_source 600000 = Ok x /\ c_ext c = ".mpd" /\ 0 < c_xlink c /\ 0 < c_pph c /\ manifest_ready x
  /\ (forall y k, In y (x_kids x) -> period_nr y k -> lacks (escape false base ++ c_filename c) ("p" ++ print_Z k)) /\ one_base x base
  /\ map x_tag (x_kids x) = ["ProgramInformation"; "BaseURL"; "Period"; "Period"]
  /\ ex_text o 600000 = Ok (manifest_text x [write_xml (ex_kid x 0); write_xml (ex_kid x 1); write_xml (ex_kid x 2);
       "<Period xlink:href=""http://h/livesim/periods_60/xlink_30/tsbd_30/testpic/Manifest.mpd+p10000.period"" xlink:actuate=""onLoad"" xmlns:xlink=""http://www.w3.org/1999/xlink""></Period>"]).
Proof.
  cbv zeta. do 4 (split; [vm_compute; reflexivity|]). split; [apply manifest_b_ok; vm_compute; reflexivity|].
  split; [|split; [|split; [vm_compute; reflexivity|vm_compute; reflexivity]]].
  - intros y k Y (T & G). assert (L : lack_b (escape false "http://h/livesim/periods_60/xlink_30/tsbd_30/testpic/" ++ "Manifest.mpd") "p1" = true /\
      lack_b (escape false "http://h/livesim/periods_60/xlink_30/tsbd_30/testpic/" ++ "Manifest.mpd") "p9" = true) by (split; vm_compute; reflexivity).
    assert (I : In ("p" ++ print_Z k) ["p9999"; "p10000"]).
    { set (ks := x_kids (ex_x ["periods_60"; "xlink_30"; "tsbd_30"] 600000)) in *.
      assert (W : forallb (fun y => negb (x_tag y =? "Period")%string || match get "id" y with Some i => (i =? "p9999")%string || (i =? "p10000")%string | None => false end) ks = true) by (vm_compute; reflexivity).
      clearbody ks. rewrite forallb_forall in W. specialize (W y Y). rewrite T, G in W. cbn [String.eqb Ascii.eqb Bool.eqb negb orb] in W. apply orb_prop in W.
      destruct W as [W|W]; apply String.eqb_eq in W; rewrite W; [left|right; left]; reflexivity. }
    clear -I L. destruct I as [<- |[<- |[]]]; apply lack_b_ok; vm_compute; reflexivity.
  - set (x := ex_x _ _). exists [ex_kid x 0], [ex_kid x 2; ex_kid x 3]. split; [vm_compute; reflexivity|]. split; [constructor; [vm_compute; discriminate|constructor]|].
    split; [|split; [discriminate|apply lack_b_ok; vm_compute; reflexivity]].
    assert (F : forallb (nameless_b "BaseURL") ([ex_kid x 0] ++ [ex_kid x 2; ex_kid x 3]) = true) by (vm_compute; reflexivity). revert F. apply forallb_F. apply nameless_b_ok.
Qed.
(** with ads the first selected period stays, with an AssetIdentifier *)
Example ex_C59_replaced_ads :
  let o := ["periods_60"; "xlink_30"; "insertad_5"; "tsbd_90"] in let x := ex_x o 600000 in
  map (fun y => if is_tag "Period" y then match get "id" y with Some i => i | None => "" end else "") (x_kids x) = [""; ""; "p9998"; "p9999"; "p10000"]
  /\ manifest_ready x
  /\ ex_text o 600000 = Ok (manifest_text x [write_xml (ex_kid x 0); write_xml (ex_kid x 1); asset_text (ex_kid x 2); asset_text (ex_kid x 3);
                                             link_text 5 "" "" 10000 (ex_kid x 4)]).
Proof. cbv zeta. split; [vm_compute; reflexivity|]. split; [apply manifest_b_ok; vm_compute; reflexivity|vm_compute; reflexivity]. Qed.
Example ex_C59_resolve :
  let o := ["periods_60"; "xlink_30"; "tsbd_30"] in
  let c := ex_mpd o 600000 in let x := ex_x o 600000 in let y := ex_kid x 3 in
  get_mpd c (ex_env o) ex_source 600000 = Ok x /\ 0 < c_xlink c /\ c_add_loc c = false /\ manifest_ready x /\ lacks (c_filename c) "+"
  /\ nth_error (x_kids x) 3 = Some y /\ period_nr y 10000
  (* the URL of the link has this configuration *)
  /\ ProxyTheory.ex_cfg (o ++ ["testpic"; "Manifest.mpd+p10000.period"]) 600000
     = Ok (set_ext ".period" (set_filename (c_filename c ++ "+p" ++ print_Z 10000 ++ ".period") c))
  /\ (get "id" y, get "start" y) = (Some "p10000", Some "PT600000S").
Proof.
  cbv zeta. do 3 (split; [vm_compute; reflexivity|]). split; [apply manifest_b_ok; vm_compute; reflexivity|].
  split; [apply lack_b_ok; vm_compute; reflexivity|]. split; [vm_compute; reflexivity|]. split; [split; vm_compute; reflexivity|]. split; vm_compute; reflexivity.
Qed.

(** *** Where the statement fails *)
(** The period is looked up by its id anywhere in the text: p4 is found in the
    mp4 of an earlier mimeType.  The text from there to the end of period p3 is
    replaced; the selected period p4 stays and p3, which is not selected, is cut. *)
Lemma C59_mentioned_refuted_pf : exists c e source now x y4 y3 t,
  get_mpd c e source now = Ok x /\ c_ext c = ".mpd" /\ c_xlink c = 30 /\ c_pph c = 60 /\ c_insert_ad c = -1
  /\ In y3 (x_kids x) /\ In y4 (x_kids x) /\ period_nr y3 3 /\ period_nr y4 4 /\ child_chosen 2 y4 /\ ~ child_chosen 2 y3
  /\ get_mpd_text c e source now = Ok t /\ occurs (write_xml y4) t /\ lacks t (write_xml y3).
Proof.
  set (o := ["periods_60"; "xlink_30"; "tsbd_30"]). set (c := ex_mpd o 270). set (x := ex_x o 270).
  set (t := match ex_text o 270 with Ok t => t | Err _ => "" end).
  assert (G : get_mpd c (ex_env o) ex_source 270 = Ok x) by (vm_compute; reflexivity).
  assert (F : c_ext c = ".mpd" /\ c_xlink c = 30 /\ c_pph c = 60 /\ c_insert_ad c = -1) by (repeat split; vm_compute; reflexivity).
  assert (T : get_mpd_text c (ex_env o) ex_source 270 = Ok t) by (vm_compute; reflexivity).
  set (y3 := ex_kid x 2). set (y4 := ex_kid x 3).
  assert (I3 : In y3 (x_kids x)) by (apply nth_In; vm_compute; lia). assert (I4 : In y4 (x_kids x)) by (apply nth_In; vm_compute; lia).
  assert (P3 : period_nr y3 3) by (split; vm_compute; reflexivity). assert (P4 : period_nr y4 4) by (split; vm_compute; reflexivity).
  assert (O : occurs (write_xml y4) t).
  { assert (E : match find (write_xml y4) t with Some i => take i t ++ write_xml y4 ++ drop (i + String.length (write_xml y4)) t = t | None => False end) by (vm_compute; reflexivity).
    destruct (find (write_xml y4) t) as [i|]; [|contradiction]. exists (take i t), (drop (i + String.length (write_xml y4)) t). symmetry. exact E. }
  assert (L : lacks t (write_xml y3)) by (apply lack_b_ok; vm_compute; reflexivity).
  clearbody t y3 y4 x c. exists c, (ex_env o), ex_source, 270, x, y4, y3, t. destruct F as (F1 & F2 & F3 & F4).
  repeat (split; [assumption|]). split; [exists 4; split; [exact P4|exists 2; reflexivity]|].
  split; [|repeat split; assumption]. intros (n & (_ & N) & D). destruct P3 as (_ & P3). rewrite P3 in N. injection N as N. apply (print_Z_inj 3) in N. subst n. destruct D as (q & D). lia.
Qed.

(** With ads the periods that are not links are changed too. *)
Lemma C59_ads_refuted_pf : exists c e source now x y t,
  get_mpd c e source now = Ok x /\ c_ext c = ".mpd" /\ c_xlink c = 30 /\ c_pph c = 60 /\ c_insert_ad c = 1 /\ manifest_ready x
  /\ In y (x_kids x) /\ period_nr y 9999 /\ ~ child_chosen 2 y
  /\ get_mpd_text c e source now = Ok t /\ lacks t (write_xml y).
Proof.
  set (o := ["periods_60"; "xlink_30"; "tsbd_30"; "insertad_1"]). set (c := ex_mpd o 600000). set (x := ex_x o 600000).
  set (t := match ex_text o 600000 with Ok t => t | Err _ => "" end).
  assert (G : get_mpd c (ex_env o) ex_source 600000 = Ok x) by (vm_compute; reflexivity).
  assert (F : c_ext c = ".mpd" /\ c_xlink c = 30 /\ c_pph c = 60 /\ c_insert_ad c = 1) by (repeat split; vm_compute; reflexivity).
  assert (R : manifest_ready x) by (apply manifest_b_ok; vm_compute; reflexivity).
  assert (T : get_mpd_text c (ex_env o) ex_source 600000 = Ok t) by (vm_compute; reflexivity).
  set (y := ex_kid x 2). assert (I : In y (x_kids x)) by (apply nth_In; vm_compute; lia). assert (P : period_nr y 9999) by (split; vm_compute; reflexivity).
  assert (L : lacks t (write_xml y)) by (apply lack_b_ok; vm_compute; reflexivity).
  clearbody t y x c. exists c, (ex_env o), ex_source, 600000, x, y, t. destruct F as (F1 & F2 & F3 & F4).
  repeat (split; [assumption|]). split; [|split; assumption]. intros (n & (_ & N) & D). destruct P as (_ & P). rewrite P in N. injection N as N.
  apply (print_Z_inj 9999) in N. subst n. destruct D as (q & D). lia.
Qed.

(** A BaseURL with attributes (here an availability time offset) is not found. *)
Lemma C59_base_refuted_pf : exists c e source now x,
  get_mpd c e source now = Ok x /\ c_ext c = ".mpd" /\ c_xlink c = 30 /\ c_pph c = 60 /\ c_insert_ad c = -1 /\ manifest_ready x
  /\ get_mpd_text c e source now = Err "IndexError".
Proof.
  set (o := ["periods_60"; "xlink_30"; "tsbd_30"; "ato_3"]). set (c := ex_mpd o 600000). set (x := ex_x o 600000).
  assert (G : get_mpd c (ex_env o) ex_source 600000 = Ok x) by (vm_compute; reflexivity).
  assert (F : c_ext c = ".mpd" /\ c_xlink c = 30 /\ c_pph c = 60 /\ c_insert_ad c = -1) by (repeat split; vm_compute; reflexivity).
  assert (R : manifest_ready x) by (apply manifest_b_ok; vm_compute; reflexivity).
  assert (T : get_mpd_text c (ex_env o) ex_source 600000 = Err "IndexError") by (vm_compute; reflexivity).
  clearbody x c. exists c, (ex_env o), ex_source, 600000, x. tauto.
Qed.

(** With two BaseURL elements the link contains what is between them. *)
Lemma C59_two_bases_refuted_pf : exists c e source now x t,
  get_mpd c e source now = Ok x /\ c_ext c = ".mpd" /\ c_xlink c = 30 /\ c_pph c = 60 /\ c_insert_ad c = -1 /\ manifest_ready x
  /\ get_mpd_text c e source now = Ok t
  /\ occurs "<Period xlink:href=""http://h/livesim/periods_60/xlink_30/tsbd_30///testpic/baseurl_u10_d20//</BaseURL><BaseURL>" t.
Proof.
  set (o := ["periods_60"; "xlink_30"; "tsbd_30"; "baseurl_u10_d20"; "baseurl_u20_d10"]). set (c := ex_mpd o 600000). set (x := ex_x o 600000).
  set (t := match ex_text o 600000 with Ok t => t | Err _ => "" end). set (p := "<Period xlink:href=""http://h/livesim/periods_60/xlink_30/tsbd_30///testpic/baseurl_u10_d20//</BaseURL><BaseURL>").
  assert (G : get_mpd c (ex_env o) ex_source 600000 = Ok x) by (vm_compute; reflexivity).
  assert (F : c_ext c = ".mpd" /\ c_xlink c = 30 /\ c_pph c = 60 /\ c_insert_ad c = -1) by (repeat split; vm_compute; reflexivity).
  assert (R : manifest_ready x) by (apply manifest_b_ok; vm_compute; reflexivity).
  assert (T : get_mpd_text c (ex_env o) ex_source 600000 = Ok t) by (vm_compute; reflexivity).
  assert (O : occurs p t).
  { assert (E : match find p t with Some i => take i t ++ p ++ drop (i + String.length p) t = t | None => False end) by (vm_compute; reflexivity).
    destruct (find p t) as [i|]; [|contradiction]. exists (take i t), (drop (i + String.length p) t). symmetry. exact E. }
  clearbody t x c p. exists c, (ex_env o), ex_source, 600000, x, t. tauto.
Qed.
(** No periods and a link per period: the step is 0. *)
Lemma C59_no_periods_refuted_pf : exists c e source now x,
  get_mpd c e source now = Ok x /\ c_ext c = ".mpd" /\ c_xlink c = 30 /\ c_pph c = 0
  /\ get_mpd_text c e source now = Err "ZeroDivisionError".
Proof.
  set (o := ["periods_0"; "xlink_30"; "tsbd_30"]). set (c := ex_mpd o 600000). set (x := ex_x o 600000).
  assert (G : get_mpd c (ex_env o) ex_source 600000 = Ok x) by (vm_compute; reflexivity).
  assert (F : c_ext c = ".mpd" /\ c_xlink c = 30 /\ c_pph c = 0) by (repeat split; vm_compute; reflexivity).
  assert (T : get_mpd_text c (ex_env o) ex_source 600000 = Err "ZeroDivisionError") by (vm_compute; reflexivity).
  clearbody x c. exists c, (ex_env o), ex_source, 600000, x. tauto.
Qed.
