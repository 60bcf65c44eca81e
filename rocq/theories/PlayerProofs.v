(** Fields of the configuration of a manifest request. *)
From Verif Require Import Base BaseProofs BytesModel BytesProofs BoxSpec ConfigModel ConfigProofs ConfigTheory SessionProofs HttpModel HttpProofs MpdProofs Mpd2Proofs
  ProxySpec MediaSpec MediaProofs MediaProofs5 ServeSpec EndSpec PlayerSpec.
Local Open Scope string_scope.
Open Scope Z_scope.

(** *** The content name plays no role after the file data are set *)
Section Name.
Variable nm : string.
Notation rf := (set_content_name nm).

Lemma sn_vodcfg : forall c v, update_with_vodcfg (rf c) v = rf (update_with_vodcfg c v).
Proof. intros. unfold update_with_vodcfg. change (c_tsbd (rf c)) with (c_tsbd c). destruct (c_tsbd c); reflexivity. Qed.
Lemma sn_aet : forall now pairs c, update_with_aet now pairs (rf c) = lift rf (update_with_aet now pairs c).
Proof.
  intros. unfold update_with_aet. change (c_mup (rf c)) with (c_mup c).
  destruct (rev pairs) as [|(a, b) r]; [reflexivity|]. destruct (c_mup c); [|reflexivity].
  destruct (aet_loop _ _ _ _ _). reflexivity.
Qed.
Lemma sn_start : forall s durs now stop c, process_start_time s durs now stop (rf c) = lift rf (process_start_time s durs now stop c).
Proof.
  intros s durs now stop c. unfold process_start_time.
  change (c_seg_dur (rf c)) with (c_seg_dur c).
  destruct (quantize s (c_seg_dur c)) as [a|]; cbn [bind]; [|reflexivity].
  change (set_start_time (Some a) (set_ast a (rf c))) with (rf (set_start_time (Some a) (set_ast a c))).
  set (c1 := set_start_time (Some a) (set_ast a c)).
  change (c_mup (rf c1)) with (c_mup c1).
  assert (E : match c_mup c1 with None => set_mup (Some (inject_Z 10)) (rf c1) | Some _ => rf c1 end
     = rf (match c_mup c1 with None => set_mup (Some (inject_Z 10)) c1 | Some _ => c1 end)).
  { destruct (c_mup c1); reflexivity. }
  rewrite E. set (c2 := match c_mup c1 with None => set_mup (Some (inject_Z 10)) c1 | Some _ => c1 end).
  clearbody c2. clear E.
  set (X := match durs with [] => Ok (rf c2) | _ => _ end).
  set (Y := match durs with [] => Ok c2 | _ => _ end).
  assert (XY : X = lift rf Y).
  { unfold X, Y. destruct durs as [|d0 ds]; [reflexivity|].
    destruct (end_times _ _ _ _) as [pairs|]; cbn [bind]; [|reflexivity].
    destruct (py_last pairs) as [lp|]; cbn [bind]; [|reflexivity].
    destruct (py_div _ _) as [q|]; cbn [bind]; [|reflexivity].
    change (set_last_nrs (c_last_nrs (rf c2) ++ [inject_Z (q - 1)]) (rf c2))
      with (rf (set_last_nrs (c_last_nrs c2 ++ [inject_Z (q - 1)]) c2)).
    apply sn_aet. }
  rewrite XY. destruct Y as [c3|]; cbn [bind lift]; [|reflexivity].
  destruct stop as [st|]; [|reflexivity].
  destruct (quantize _ _); reflexivity.
Qed.
Lemma sn_tfdt : forall now c, update_for_tfdt32 now (rf c) = lift rf (update_for_tfdt32 now c).
Proof. intros. unfold update_for_tfdt32. destruct (quantize _ _); reflexivity. Qed.
Lemma sn_cont : forall now c, update_for_cont_update now (rf c) = lift rf (update_for_cont_update now c).
Proof.
  intros. unfold update_for_cont_update. change (c_seg_dur (rf c)) with (c_seg_dur c).
  destruct (quantize _ _); reflexivity.
Qed.
Lemma sn_modulo : forall m d c, update_with_modulo_period m d (rf c) = lift rf (update_with_modulo_period m d c).
Proof. intros. unfold update_with_modulo_period. destruct (mo_last_nr m d); reflexivity. Qed.
Lemma sn_publish : forall now c, update_publish_time now (rf c) = lift rf (update_publish_time now c).
Proof.
  intros. unfold update_publish_time. change (c_ast (rf c)) with (c_ast c). change (c_mup (rf c)) with (c_mup c).
  destruct (c_ast c =? 0); [reflexivity|]. destruct (c_mup c) as [m|]; [|reflexivity].
  destruct (quantizeQ now m); reflexivity.
Qed.
End Name.
Lemma sn_tail : forall nm now v u c,
  finish_tail now v u (set_content_name nm c) = lift (set_content_name nm) (finish_tail now v u c).
Proof.
  intros nm now v u c. unfold finish_tail. rewrite sn_vodcfg.
  set (c1 := update_with_vodcfg c v). clearbody c1.
  set (X := match u_start u with None => Ok (set_content_name nm c1) | Some s => _ end).
  set (Y := match u_start u with None => Ok c1 | Some s => _ end).
  assert (E : X = lift (set_content_name nm) Y).
  { unfold X, Y. destruct (u_start u); [|reflexivity]. destruct (u_mod u); [reflexivity|]. apply sn_start. }
  rewrite E. destruct Y as [c2|]; cbn [bind lift]; [|reflexivity]. clear E X.
  change (c_tfdt32 (set_content_name nm c2)) with (c_tfdt32 c2).
  set (X := if c_tfdt32 c2 then if u_cont u then _ else update_for_tfdt32 now (set_content_name nm c2) else _).
  set (Y := if c_tfdt32 c2 then if u_cont u then _ else update_for_tfdt32 now c2 else _).
  assert (E : X = lift (set_content_name nm) Y).
  { unfold X, Y. destruct (c_tfdt32 c2); [|reflexivity]. destruct (u_cont u); [reflexivity|]. apply sn_tfdt. }
  rewrite E. destruct Y as [c3|]; cbn [bind lift]; [|reflexivity]. clear E X.
  set (X := if u_cont u then update_for_cont_update now (set_content_name nm c3) else _).
  set (Y := if u_cont u then update_for_cont_update now c3 else _).
  assert (E : X = lift (set_content_name nm) Y).
  { unfold X, Y. destruct (u_cont u); [|reflexivity]. apply sn_cont. }
  rewrite E. destruct Y as [c4|]; cbn [bind lift]; [|reflexivity]. clear E X.
  change (c_seg_dur (set_content_name nm c4)) with (c_seg_dur c4).
  set (X := match u_mod u with None => Ok (set_content_name nm c4) | Some m => _ end).
  set (Y := match u_mod u with None => Ok c4 | Some m => _ end).
  assert (E : X = lift (set_content_name nm) Y).
  { unfold X, Y. destruct (u_mod u); [|reflexivity]. apply sn_modulo. }
  rewrite E. destruct Y as [c5|]; cbn [bind lift]; [|reflexivity]. clear E X.
  rewrite sn_publish. destruct (update_publish_time now c5) as [c6|]; cbn [bind lift]; [|reflexivity].
  destruct (u_addloc u), (u_toff u); reflexivity.
Qed.


Lemma tail_name : forall now v u c c', finish_tail now v u c = Ok c' -> c_content_name c' = c_content_name c.
Proof.
  intros now v u c c' H. assert (E : set_content_name (c_content_name c) c = c) by (destruct c; reflexivity).
  pose proof (sn_tail (c_content_name c) now v u c) as K. rewrite E, H in K. cbn [lift] in K. injection K as K.
  rewrite K. reflexivity.
Qed.
Lemma option_name : forall now k v u u', url_option now k v u = Ok u' -> c_content_name (u_cfg u') = c_content_name (u_cfg u).
Proof.
  intros now k v u u' H. unfold url_option in H.
  repeat match type of H with
  | (if (?b || ?b')%bool then _ else _) = _ => destruct (b || b')%bool
  | (if ?b then _ else _) = _ => destruct b
  | int_opt _ _ _ = _ => unfold int_opt in H
  | flag_opt _ _ _ = _ => unfold flag_opt in H
  | bind ?x _ = _ => destruct x; cbn [bind] in H; [|discriminate]
  | match ?x with Ok _ => _ | Err _ => _ end = _ => destruct x
  | Err _ = _ => discriminate
  end; try (injection H as <-; reflexivity).
  all: injection H as <-; match goal with |- context [if ?b then _ else _] => destruct b end; reflexivity.
Qed.
Lemma fold_opts_name : forall now opts u u', fold_opts now opts u = Ok u' -> c_content_name (u_cfg u') = c_content_name (u_cfg u).
Proof.
  intros now opts. induction opts as [|(k, v) l IH]; intros u u' H; cbn [fold_opts] in H; [injection H as <-; reflexivity|].
  apply bind_inv in H. destruct H as (w & W & H). rewrite (IH _ _ H). eapply option_name. exact W.
Qed.
Lemma manifest_vod : forall read b opts name file now c vc,
  Forall (fun kv => str_in (fst kv) url_cfg_keys = true) opts -> plain_name name ->
  process_url read b (manifest_parts opts name file) now = Ok c -> read name = Ok vc -> 0 < v_dur vc -> 0 < v_n vc ->
  c_seg_dur c = v_dur vc /\ c_vod_n c = v_n vc /\ c_vod_first c = v_first vc /\ c_content_name c = name /\ c_media_data c = v_media vc.
Proof.
  intros read b opts name file now c vc F P H R D N. pose proof H as H0. rewrite process_url_manifest in H by assumption.
  apply bind_inv in H. destruct H as (u & U & H). apply bind_inv in H. destruct H as (v & V & H).
  assert (v = vc) by congruence. subst v.
  assert (T : untouched (u_cfg u)) by (eapply fold_opts_untouched; [apply init_untouched|exact U]).
  assert (H1 : finish_url now [] 0%nat vc (u_setcfg (fun _ => u_cfg (filedata u opts name "" file)) u) = Ok c) by (rewrite finish_split; exact H).
  destruct (finish_url_wf _ _ _ _ (u_setcfg (fun _ => u_cfg (filedata u opts name "" file)) u) _ D N ltac:(destruct T as (_ & _ & _ & _ & T5 & _); exact T5) H1) as (_ & B).
  destruct B as (b1 & b2 & b3 & _ & _ & _ & _ & _ & _ & _ & _ & _ & b13).
  split; [exact b1|]. split; [exact b2|]. split; [exact b3|]. split; [|exact b13].
  rewrite (tail_name _ _ _ _ _ H). reflexivity.
Qed.

(** *** Decode times of what is sent *)
Definition of_tfdt (l : list (bytes * bytes)) : list bytes := map snd (filter (fun x => bytes_eqb (fst x) (bstr "tfdt")) l).
Lemma of_tfdt_app : forall a b, of_tfdt (a ++ b) = (of_tfdt a ++ of_tfdt b)%list.
Proof. intros. unfold of_tfdt. rewrite filter_app, map_app. reflexivity. Qed.
Definition all_leaves (l : list box) : list (bytes * bytes) := flat_map leaves l.
Lemma leaves_node : forall t ks, leaves (Node t ks) = all_leaves ks.
Proof. intros t ks. cbn [leaves]. unfold all_leaves. induction ks as [|k ks IH]; [reflexivity|]. cbn [flat_map]. rewrite <- IH. reflexivity. Qed.
Definition moved (s : Z) (a b : list bytes) : Prop := forall ts, Forall2 decode_time a ts -> Forall2 decode_time b (map (fun t => t + s) ts).
Lemma moved_app : forall s a b a' b', moved s a a' -> moved s b b' -> moved s (a ++ b) (a' ++ b').
Proof.
  intros s a b a' b' H K ts F. apply Forall2_app_inv_l in F. destruct F as (t1 & t2 & F1 & F2 & ->).
  rewrite map_app. apply Forall2_app; auto.
Qed.
Lemma moved_nil : forall s, moved s [] [].
Proof. intros s ts F. inversion F. constructor. Qed.
Lemma tfdt_moved : forall s p p' t, decode_time p t -> decode_time p' (t + s) -> moved s [p] [p'].
Proof.
  intros s p p' t D D' ts F. inversion F as [|? t' ? ? D2 F2]; subst. inversion F2; subst. cbn [map].
  rewrite (decode_time_fun _ _ _ D2 D). constructor; [exact D'|constructor].
Qed.
Section Moved.
Variable r : request.
Hypothesis EV : of_tfdt (all_leaves (rq_events r)) = [].
Lemma change_moved :
  (forall d b bs d', doc_change r d b bs d' -> moved (rq_shift r) (of_tfdt (leaves b)) (of_tfdt (all_leaves bs))) /\
  (forall d l l' d', doc_changes r d l l' d' -> moved (rq_shift r) (of_tfdt (all_leaves l)) (of_tfdt (all_leaves l'))).
Proof.
  apply doc_ind; intros; cbn [leaves all_leaves flat_map]; rewrite ?app_nil_r;
    try (change (of_tfdt [(?t, ?p)]) with (@nil bytes)); try exact (moved_nil _).
  - unfold of_tfdt. cbn [filter fst]. destruct (bytes_eqb t (bstr "tfdt")) eqn:E; [|exact (moved_nil _)].
    exfalso. apply n. apply bytes_eqb_eq in E. subst t. cbn. tauto.
  - rewrite of_tfdt_app. change (flat_map leaves (rq_events r)) with (all_leaves (rq_events r)). rewrite EV. exact (moved_nil _).
  - apply (tfdt_moved _ _ _ t); apply DT0; auto.
  - apply (tfdt_moved _ _ _ t); [apply DT0; auto|]. apply DT1; auto; lia.
  - apply (tfdt_moved _ _ _ t); apply DT1; auto.
  - change (moved (rq_shift r) (of_tfdt (leaves (Node t ks))) (of_tfdt (leaves (Node t ks')))). rewrite !leaves_node. exact H.
  - unfold all_leaves. rewrite flat_map_app, !of_tfdt_app. apply moved_app; assumption.
Qed.
Lemma change_type : forall d b bs d', doc_change r d b bs d' -> Forall (fun k => ~ moof k) (rq_events r) ->
  (moof b -> exists b', bs = [b'] /\ moof b') /\ (~ moof b -> Forall (fun k => ~ moof k) bs).
Proof.
  intros d b bs d' H N. destruct H; unfold moof; cbn [btype]; split; intros M;
    try (eexists; split; [reflexivity|exact M]); try discriminate; try (constructor; [exact M|constructor]).
  - constructor.
  - constructor; [exact M|exact N].
Qed.
Lemma tfdts_none : forall l, Forall (fun k => ~ moof k) l -> tfdts l = [].
Proof.
  intros l F. induction F as [|b l N F IH]; [reflexivity|]. unfold tfdts in *. cbn [flat_map]. rewrite IH.
  destruct (bytes_eqb (btype b) (bstr "moof")) eqn:E; [|reflexivity]. apply bytes_eqb_eq in E. contradiction.
Qed.
Lemma tfdts_app : forall a b, tfdts (a ++ b) = (tfdts a ++ tfdts b)%list.
Proof. intros. apply flat_map_app. Qed.
Lemma top_moved : Forall (fun k => ~ moof k) (rq_events r) ->
  forall d l l' d', top_changes r d l l' d' -> moved (rq_shift r) (tfdts l) (tfdts l').
Proof.
  intros N d l l' d' H. induction H as [|d b bs d1 l l' d2 I C T IH|d b l l' d2 I T IH]; [exact (moved_nil _)| |].
  - change (b :: l) with ([b] ++ l)%list. rewrite !tfdts_app. apply moved_app; [|exact IH].
    destruct (change_type _ _ _ _ C N) as (M1 & M2). destruct (bytes_eqb (btype b) (bstr "moof")) eqn:E.
    + apply bytes_eqb_eq in E. destruct (M1 E) as (b' & -> & M). pose proof (proj1 change_moved _ _ _ _ C) as K.
      unfold tfdts. cbn [flat_map]. rewrite !app_nil_r. unfold moof in M. rewrite E, M. cbn [all_leaves flat_map] in K. rewrite app_nil_r in K. exact K.
    + assert (NM : ~ moof b) by (intros Q; unfold moof in Q; rewrite Q in E; discriminate).
      rewrite (tfdts_none [b]), (tfdts_none bs); auto. exact (moved_nil _).
  - change (b :: l) with ([b] ++ l)%list. change (b :: l') with ([b] ++ l')%list. rewrite !tfdts_app. apply moved_app; [|exact IH].
    rewrite (tfdts_none [b]); [exact (moved_nil _)|]. constructor; [|constructor]. intros Q. apply I. unfold moof in Q. rewrite Q. cbn. tauto.
Qed.
End Moved.
Lemma sent_times : forall c rp n sec down l out ts, sent c rp n sec down l out ->
  decodes l ts -> decodes out (map (fun t => t + shift c n * rep_timescale rp) ts).
Proof.
  intros c rp n sec down l out ts (last & ev & e & sx & l1 & g & TC & INS & _ & E & SX & _ & EV1 & EV2) D.
  assert (EM : ev = [] \/ exists p, ev = [Leaf (bstr "emsg") p]).
  { destruct (string_dec (rep_type rp) "video") as [V|V]; [|left; auto].
    destruct (EV2 V) as ([K|(_ & t & K & _)] & _); [left; exact K|right]. rewrite K. eexists. reflexivity. }
  assert (NX : Forall (fun k => ~ moof k) (e ++ sx)).
  { apply Forall_app. split.
    - destruct down; [destruct E as (b & -> & (text & y & m & d & hh & mi & ss & -> & _)); constructor; [discriminate|constructor]|subst e; constructor].
    - eapply Forall_impl; [|exact SX]. cbv beta. intros b B M. unfold moof in M. rewrite B in M. discriminate. }
  assert (T : tfdts out = tfdts l1).
  { set (q := (e ++ sx)%list) in *. clearbody q.
    destruct INS as [(a & m & b & -> & _ & _ & ->)|(_ & ->)]; rewrite !tfdts_app, (tfdts_none q) by exact NX; reflexivity. }
  unfold decodes. rewrite T.
  apply (top_moved (mk_request (Some n) (shift c n * rep_timescale rp) last None ev)) with (d := 0) (l := l) (d' := g); auto; cbn [rq_events].
  - destruct EM as [->|(p & ->)]; reflexivity.
  - destruct EM as [->|(p & ->)]; [constructor|constructor; [discriminate|constructor]].
Qed.
