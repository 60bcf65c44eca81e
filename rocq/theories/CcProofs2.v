(** The caption bytes, the sample table and the media data. *)
From Coq Require Import ZifyBool ZifyNat.
From Verif Require Import Base BaseProofs BytesModel BytesProofs BoxSpec Mp4Model Mp4Proofs ChunkModel ChunkSpec CcModel CcSpec CcProofs.
Open Scope Z_scope.

(** ** generate_data *)
Lemma land255 : forall x, Z.land x 255 = x mod 256.
Proof. intros. change 255 with (Z.ones 8). rewrite Z.land_ones by lia. reflexivity. Qed.
Lemma land31 : forall x, Z.land x 31 = x mod 32.
Proof. intros. change 31 with (Z.ones 5). rewrite Z.land_ones by lia. reflexivity. Qed.
Lemma word_ok : forall field w, field = 1 \/ field = 2 -> cc_word field w = Ok (word_bytes field w).
Proof.
  intros field w F. unfold cc_word, word_bytes.
  assert (E : Z.shiftr (Z.land w 65280) 8 = w / 256 mod 256).
  { rewrite Z.shiftr_land. change (Z.shiftr 65280 8) with 255. rewrite land255, Z.shiftr_div_pow2 by lia. reflexivity. }
  rewrite E, land255. destruct F as [-> | ->]; reflexivity.
Qed.
Lemma words_ok : forall field l, field = 1 \/ field = 2 -> cc_words field l = Ok (List.concat (map (word_bytes field) l)).
Proof.
  intros field l F. induction l as [|w r IH]; [reflexivity|]. cbn [cc_words map List.concat].
  rewrite word_ok by auto. cbn [bind]. rewrite IH. reflexivity.
Qed.
Lemma words_len : forall field l, blen (List.concat (map (word_bytes field) l)) = 3 * Z.of_nat (List.length l).
Proof.
  intros. induction l as [|w r IH]; [reflexivity|]. cbn [map List.concat]. rewrite blen_app, IH.
  change (blen (word_bytes field w)) with 3. cbn [List.length]. lia.
Qed.
Lemma words_range : forall field l, field = 1 \/ field = 2 -> forallb (fun x => (0 <=? x) && (x <=? 255)) (List.concat (map (word_bytes field) l)) = true.
Proof.
  intros field l F. induction l as [|w r IH]; [reflexivity|]. cbn [map List.concat]. rewrite forallb_app, IH, andb_true_r.
  unfold word_bytes. cbn [forallb]. assert (A := Z.mod_pos_bound (w / 256) 256). assert (B := Z.mod_pos_bound w 256).
  rewrite !andb_true_iff, !Z.leb_le. lia.
Qed.
Lemma one_ok : forall field ws, field = 1 \/ field = 2 -> (List.length ws <= 31)%nat ->
  generate_one field ws = Ok (unit_bytes (caption_nal field ws)).
Proof.
  intros field ws F L. unfold generate_one. rewrite words_ok by auto. cbn [bind].
  set (n := Z.of_nat (List.length ws)). set (W := List.concat (map (word_bytes field) ws)).
  assert (LW : blen W = 3 * n) by apply words_len.
  assert (N : [102; 4; 1 + 2 + 4 + 1 + (1 + 1 + n * 3 + 1); 181; 0; 49; 71; 65; 57; 52; 3; 192 + n; 255] ++ W ++ [255; 128] = caption_nal field ws).
  { assert (LS : blen (caption_sei field ws) = 11 + 3 * n).
    { unfold caption_sei. fold n W. rewrite !blen_app, LW. change (blen [181; 0; 49]) with 3. change (blen (bstr "GA94")) with 4.
      change (blen [3; 192 + n; 255]) with 3. change (blen [255]) with 1. lia. }
    unfold caption_nal. rewrite LS. replace (1 + 2 + 4 + 1 + (1 + 1 + n * 3 + 1)) with (11 + 3 * n) by lia.
    unfold caption_sei. fold n W. rewrite <- !app_assoc. reflexivity. }
  rewrite N. assert (LN : blen (caption_nal field ws) = 15 + 3 * n).
  { rewrite <- N, !blen_app, LW. change (blen [255; 128]) with 2. unfold blen at 1. cbn [List.length]. lia. }
  rewrite p32_ok by lia. cbn [bind]. unfold py_bytes. rewrite <- N at 1. rewrite !forallb_app. unfold W. rewrite words_range by auto.
  assert (R : forallb (fun x => (0 <=? x) && (x <=? 255)) [102; 4; 1 + 2 + 4 + 1 + (1 + 1 + n * 3 + 1); 181; 0; 49; 71; 65; 57; 52; 3; 192 + n; 255] = true).
  { cbn [forallb]. rewrite !andb_true_iff, !Z.leb_le. lia. }
  rewrite R. change (forallb (fun x => (0 <=? x) && (x <=? 255)) [255; 128]) with true. cbn [andb bind]. unfold unit_bytes. rewrite be32_eq. reflexivity.
Qed.
Lemma generate_ok : forall field l, field = 1 \/ field = 2 -> Forall (fun c => (List.length (snd c) <= 31)%nat) l ->
  generate_data field l = Ok (caption_bytes field l).
Proof.
  intros field l F H. induction H as [|[t ws] r W H IH]; [reflexivity|]. cbn [generate_data snd] in *.
  rewrite one_ok by auto. cbn [bind]. rewrite IH. cbn [bind]. reflexivity.
Qed.
Lemma in_shown : forall ts a z c, in_window (inject_Z a / inject_Z ts) (inject_Z z / inject_Z ts) c = shown ts a z c.
Proof. reflexivity. Qed.

(** ** The sample table *)
Lemma u32_mid : forall pre x post, blen x = 4 -> u32_at (pre ++ x ++ post) (blen pre) = Ok (be_val x).
Proof. intros. unfold u32_at. rewrite bslice_mid by lia. apply u32_ok. auto. Qed.
Lemma read_field : forall o b pre post, b = has o -> u32 o ->
  (if b then let* v := u32_at (pre ++ opt32 o ++ post) (blen pre) in Ok (v, blen pre + 4) else Ok (0, blen pre)) =
  Ok (either o 0, blen (pre ++ opt32 o)).
Proof.
  intros [z|] b pre post -> U; cbn [has opt32 either].
  - rewrite u32_mid by apply blen_be32. cbn [bind]. rewrite be32_val by exact U. rewrite blen_app, blen_be32. reflexivity.
  - rewrite app_nil_r. reflexivity.
Qed.
Lemma write_field : forall o b, b = has o -> u32 o -> (if b then uint32_to_str (either o 0) else Ok []) = Ok (opt32 o).
Proof. intros [z|] b -> U; [|reflexivity]. cbn [has either opt32]. rewrite p32_ok, be32_eq by exact U. reflexivity. Qed.
Definition word32 (o : option Z) : option Z := match o with Some z => Some (z mod 4294967296) | None => None end.
Lemma word32_u32 : forall o, u32 (word32 o).
Proof. intros [z|]; cbn; [apply Z.mod_pos_bound; lia|exact I]. Qed.
Lemma word32_has : forall o, has (word32 o) = has o.
Proof. intros [z|]; reflexivity. Qed.
Lemma word32_bytes : forall o, opt32 (word32 o) = opt_s32 o.
Proof. intros [z|]; reflexivity. Qed.

Section Table.
  Variables (caps : list cc) (ts field : Z).
  Definition cbytes (m : media_sample) : bytes := caption_bytes field (captions_of ts caps m).
  Definition row_of (e : entry) (m : media_sample) : Prop :=
    en_dur e = Some (ms_dur m) /\ en_size e = Some (blen (ms_data m)).
  Fixpoint consecutive (t : Z) (l : list media_sample) : Prop :=
    match l with [] => True | m :: r => ms_time m = t /\ consecutive (t + ms_dur m) r end.
  Definition new_entry (e : entry) (m : media_sample) : entry :=
    mk_entry (en_dur e) (Some (blen (ms_data m) + blen (cbytes m))) (en_flags e) (en_cto e).
  Fixpoint new_entries (es : list entry) (l : list media_sample) : list entry :=
    match es, l with e :: es, m :: l => new_entry e m :: new_entries es l | _, _ => [] end.
  Fixpoint new_map (l : list media_sample) (pos : Z) : list (Z * Z * bytes) :=
    match l with
    | [] => []
    | m :: r => (match captions_of ts caps m with [] => [] | _ => [(pos, blen (ms_data m), cbytes m)] end)
                ++ new_map r (pos + blen (ms_data m))
    end.

  Lemma samples_ok : forall flags version es l pre post t orig,
    field = 1 \/ field = 2 -> ts <> 0 -> Forall (fun c => (List.length (snd c) <= 31)%nat) caps ->
    Forall2 row_of es l -> Forall (entry_ok version flags) es -> consecutive t l ->
    Forall (fun m => blen (ms_data m) + blen (cbytes m) < 4294967296) l ->
    cc_samples (List.length es) (Z.testbit flags 8) (Z.testbit flags 9) (Z.testbit flags 10) (Z.testbit flags 11)
      caps ts field (pre ++ List.concat (map entry_payload es) ++ post) (blen pre) t orig =
    Ok (List.concat (map entry_payload (new_entries es l)), new_map l orig).
  Proof.
    intros flags version es l pre post t orig F TS CW R. revert pre t orig.
    induction R as [|e m es l [RD RS] R IH]; intros pre t orig OK C B; [reflexivity|].
    inversion OK as [|? ? (U1 & U2 & U3 & U4 & B8 & B9 & B10 & B11) OK']; subst.
    destruct C as [TM C]. inversion B as [|? ? B1 B']; subst.
    cbn [List.length cc_samples map List.concat].
    assert (EP : entry_payload e = opt32 (en_dur e) ++ opt32 (en_size e) ++ opt32 (en_flags e) ++ opt32 (word32 (en_cto e)))
      by (rewrite word32_bytes; reflexivity).
    rewrite EP, <- !app_assoc.
    rewrite (read_field (en_dur e) _ _ _ B8 U1). cbn [bind].
    rewrite (app_assoc pre (opt32 (en_dur e))). rewrite (read_field (en_size e) _ _ _ B9 U2). cbn [bind].
    rewrite (app_assoc (pre ++ opt32 (en_dur e))). rewrite (read_field (en_flags e) _ _ _ B10 U3). cbn [bind].
    rewrite (app_assoc ((pre ++ opt32 (en_dur e)) ++ opt32 (en_size e))).
    assert (B11' : Z.testbit flags 11 = has (word32 (en_cto e))) by (rewrite word32_has; exact B11).
    rewrite (read_field (word32 (en_cto e)) _ _ _ B11' (word32_u32 _)). cbn [bind].
    rewrite RD, RS. cbn [either]. unfold seconds. rewrite (proj2 (Z.eqb_neq _ _) TS). cbn [bind].
    assert (G : get_scc_data caps (inject_Z (ms_time m) / inject_Z ts) (inject_Z (ms_time m + ms_dur m) / inject_Z ts) = captions_of ts caps m).
    { reflexivity. }
    rewrite G. clear G.
    assert (GD : generate_data field (captions_of ts caps m) = Ok (cbytes m)).
    { apply generate_ok; auto. unfold captions_of. apply Forall_forall. intros x I. apply filter_In in I.
      rewrite Forall_forall in CW. apply CW, I. }
    assert (S0 : (match captions_of ts caps m with
                  | [] => Ok (blen (ms_data m), [])
                  | _ => let* nalu := generate_data field (captions_of ts caps m) in
                         Ok (blen (ms_data m) + blen nalu, [(orig, blen (ms_data m), nalu)])
                  end) = Ok (blen (ms_data m) + blen (cbytes m),
                             match captions_of ts caps m with [] => [] | _ => [(orig, blen (ms_data m), cbytes m)] end)).
    { rewrite GD. unfold cbytes. destruct (captions_of ts caps m); [|reflexivity]. cbn. rewrite Z.add_0_r. reflexivity. }
    match goal with |- bind ?x _ = _ => replace x with (Ok (blen (ms_data m) + blen (cbytes m), match captions_of ts caps m with [] => [] | _ => [(orig, blen (ms_data m), cbytes m)] end)) by (symmetry; exact S0) end. clear S0. cbn [bind].
    assert (N0 := blen_nonneg (ms_data m)). assert (N1 := blen_nonneg (cbytes m)).
    assert (W1 := write_field (en_dur e) _ B8 U1). rewrite RD in W1. cbn [either] in W1. rewrite W1. cbn [bind].
    assert (W2 := write_field (Some (blen (ms_data m) + blen (cbytes m))) (Z.testbit flags 9)). rewrite B9, RS in W2 |- *.
    cbn [either has] in W2 |- *. rewrite W2 by (cbn; auto; lia). cbn [bind].
    rewrite (write_field (en_flags e) _ B10 U3). cbn [bind].
    rewrite (write_field (word32 (en_cto e)) _ B11' (word32_u32 _)). cbn [bind].
    rewrite (app_assoc (((pre ++ opt32 (Some (ms_dur m))) ++ opt32 (Some (blen (ms_data m)))) ++ opt32 (en_flags e))).
    assert (I9 := IH ((((pre ++ opt32 (Some (ms_dur m))) ++ opt32 (Some (blen (ms_data m)))) ++ opt32 (en_flags e)) ++ opt32 (word32 (en_cto e)))
      (ms_time m + ms_dur m) (orig + blen (ms_data m)) OK' C B'). rewrite B9, RS in I9. cbn [has] in I9. rewrite I9. cbn [bind].
    cbn [new_entries map List.concat new_map]. unfold new_entry at 1, entry_payload at 2. cbn [en_dur en_size en_flags en_cto].
    rewrite RD, <- word32_bytes, <- !app_assoc. reflexivity.
  Qed.

  (** ** The media data *)
  Lemma unit_len : forall n, blen (unit_bytes n) = 4 + blen n.
  Proof. intros. unfold unit_bytes. rewrite blen_app, blen_be32. reflexivity. Qed.
  Lemma nal_ok_loop : forall nals fuel pre post, Forall nal_ok nals -> (List.length nals < fuel)%nat ->
    exists before after, nals = before ++ after /\ Forall (fun n => 6 <= nal_type n) before /\
      match after with [] => True | n :: _ => nal_type n < 6 end /\
      nal_loop fuel (pre ++ units nals ++ post) (blen pre) (blen pre + blen (units nals)) = Ok (blen pre + blen (units before)).
  Proof.
    induction nals as [|n r IH]; intros fuel pre post OK L; (destruct fuel as [|fuel]; [cbn in L; lia|]).
    - exists [], []. repeat split; auto. cbn. rewrite Z.add_0_r, Z.ltb_irrefl. reflexivity.
    - inversion OK as [|? ? [NE SZ] OK']; subst. cbn [nal_loop]. unfold units. cbn [map List.concat]. fold (units r).
      assert (U := unit_len n). assert (P := blen_nonneg n). assert (Q := blen_nonneg (units r)).
      rewrite (proj2 (Z.ltb_lt _ _)) by (rewrite blen_app; lia).
      unfold unit_bytes at 1 2 3. rewrite <- !app_assoc.
      rewrite (py_slice_mid pre (be32 (blen n))) by (rewrite ?blen_be32; lia). rewrite u32_ok by apply blen_be32. cbn [bind].
      rewrite be32_val by lia. destruct n as [|b n]; [congruence|].
      rewrite (app_assoc pre). cbn [app]. rewrite py_at_mid by (rewrite blen_app, blen_be32; reflexivity). cbn [bind].
      rewrite land31. destruct (Z.ltb_spec (b mod 32) 6) as [V|V].
      + exists [], ((b :: n) :: r). repeat split; auto. cbn. rewrite Z.add_0_r. reflexivity.
      + destruct (IH fuel (pre ++ unit_bytes (b :: n)) post OK') as (bf & af & E & B1 & B2 & B3); [cbn in L; lia|].
        exists ((b :: n) :: bf), af. split; [cbn; congruence|]. split; [constructor; auto|]. split; [exact B2|].
        replace (((pre ++ be32 (blen (b :: n))) ++ b :: n ++ units r ++ post)) with ((pre ++ unit_bytes (b :: n)) ++ units r ++ post)
          by (unfold unit_bytes; rewrite <- !app_assoc; reflexivity).
        replace (blen pre + (blen (b :: n) + 4)) with (blen (pre ++ unit_bytes (b :: n))) by (rewrite blen_app, unit_len; lia).
        replace (blen pre + blen (unit_bytes (b :: n) ++ units r)) with (blen (pre ++ unit_bytes (b :: n)) + blen (units r)) by (rewrite !blen_app; lia).
        rewrite B3. f_equal. unfold units. cbn [map List.concat]. rewrite !blen_app. lia.
  Qed.
  Lemma units_count : forall nals, (List.length nals <= List.length (units nals))%nat.
  Proof.
    induction nals as [|n r IH]; [cbn; lia|]. unfold units in *. cbn [map List.concat List.length]. rewrite app_length.
    assert (U := unit_len n). unfold blen in U. lia.
  Qed.
  Lemma units_app : forall a b, units (a ++ b) = units a ++ units b.
  Proof. intros. unfold units. rewrite map_app, concat_app. reflexivity. Qed.

  Lemma mdat_loop_ok : forall l, Forall (fun m => video_sample (ms_data m)) l ->
    exists ss, Forall2 (fun m s => with_captions field (captions_of ts caps m) (ms_data m) s /\ blen s = blen (ms_data m) + blen (cbytes m)) l ss /\
    forall A P y o pos O, blen A + blen P = o + pos ->
      mdat_loop (new_map l pos) (A ++ P ++ List.concat (map ms_data l) ++ y) o (blen A) O =
      Ok (O ++ P ++ List.concat ss ++ y).
  Proof.
    induction 1 as [|m l V H (ss & F & IH)].
    - exists []. split; [constructor|]. intros A P y o pos O E. cbn [new_map map List.concat mdat_loop app].
      assert (NP := blen_nonneg (P ++ y)). rewrite blen_app. destruct (Z.ltb_spec (blen A) (blen A + blen (P ++ y))).
      + rewrite py_slice_end by reflexivity. reflexivity.
      + rewrite (blen_zero (P ++ y)) by lia. rewrite app_nil_r. reflexivity.
    - destruct V as (nals & NOK & ED). destruct (captions_of ts caps m) as [|c cs] eqn:EC.
      + exists (ms_data m :: ss). split.
        { constructor; [|exact F]. rewrite EC. split; [left; auto|]. unfold cbytes. rewrite EC. cbn. lia. }
        intros A P y o pos O E. cbn [new_map]. rewrite EC. cbn [app map List.concat].
        rewrite <- app_assoc. rewrite (app_assoc P (ms_data m)). rewrite (IH A (P ++ ms_data m) y o (pos + blen (ms_data m)) O) by (rewrite blen_app; lia).
        rewrite <- !app_assoc. reflexivity.
      + (* the split of the NAL units does not depend on what is around them *)
        assert (SP : exists before after, nals = before ++ after /\ Forall (fun n => 6 <= nal_type n) before /\
                   match after with [] => True | n :: _ => nal_type n < 6 end /\
                   forall fuel pre post, (List.length nals < fuel)%nat ->
                   nal_loop fuel (pre ++ units nals ++ post) (blen pre) (blen pre + blen (units nals)) = Ok (blen pre + blen (units before))).
        { destruct (nal_ok_loop nals (Datatypes.S (List.length nals)) [] [] NOK) as (bf & af & E & B1 & B2 & _); [lia|].
          exists bf, af. split; [exact E|]. split; [exact B1|]. split; [exact B2|]. intros fuel pre post L.
          destruct (nal_ok_loop nals fuel pre post NOK L) as (bf' & af' & E' & B1' & B2' & B3'). rewrite B3'. enough (EQ : bf' = bf) by (rewrite EQ; reflexivity).
          clear -E E' B1 B2 B1' B2'. subst nals. revert bf' af' E' B1' B2'. induction B1 as [|x bf X B1 IH]; intros bf' af' E' B1' B2'.
          - destruct bf' as [|x' bf']; [reflexivity|]. cbn in E'. rewrite E' in B2. inversion B1'; subst. lia.
          - destruct bf' as [|x' bf'].
            + cbn in E'. rewrite <- E' in B2'. lia.
            + cbn in E'. injection E' as <- E'. f_equal. inversion B1'; subst. eapply IH; eauto. }
        destruct SP as (bf & af & EN & B1 & B2 & NL).
        set (s := units bf ++ cbytes m ++ units af).
        exists (s :: ss). split.
        { constructor; [|exact F]. split.
          - right. exists bf, af. rewrite ED, EN, units_app. repeat split; auto.
          - unfold s. rewrite ED, EN, units_app, !blen_app. lia. }
        intros A P y o pos O E. cbn [new_map]. rewrite EC. cbn [app map List.concat mdat_loop].
        assert (NA := blen_nonneg A). assert (NP := blen_nonneg P).
        set (rest := List.concat (map ms_data l) ++ y).
        replace (A ++ P ++ (ms_data m ++ List.concat (map ms_data l)) ++ y) with ((A ++ P) ++ ms_data m ++ rest) by (unfold rest; rewrite <- !app_assoc; reflexivity).
        assert (ST : (if blen A <? pos + o
                      then (O ++ py_slice (blen A) (pos + o) ((A ++ P) ++ ms_data m ++ rest), pos + o)
                      else (O, blen A)) = (O ++ P, blen (A ++ P))).
        { rewrite blen_app. destruct (Z.ltb_spec (blen A) (pos + o)) as [V|V].
          - rewrite <- app_assoc. rewrite (py_slice_mid A P) by lia. f_equal. lia.
          - rewrite (blen_zero P) by lia. rewrite app_nil_r. change (blen []) with 0. f_equal. lia. }
        rewrite ST. clear ST. rewrite ED.
        rewrite NL.
        2:{ rewrite !app_length. assert (U := units_count nals). lia. }
        cbn [bind].
        assert (U : blen (units nals) = blen (units bf) + blen (units af)) by (rewrite EN, units_app, blen_app; reflexivity).
        assert (ST : forall D, D = ((A ++ P) ++ units bf) ++ units af ++ rest ->
          (if blen (A ++ P) <? blen (A ++ P) + blen (units bf)
           then ((O ++ P) ++ py_slice (blen (A ++ P)) (blen (A ++ P) + blen (units bf)) D, blen (A ++ P) + blen (units bf))
           else (O ++ P, blen (A ++ P))) = ((O ++ P) ++ units bf, blen ((A ++ P) ++ units bf))).
        { intros D ->. assert (NB := blen_nonneg (units bf)). rewrite (blen_app (A ++ P) (units bf)). destruct (Z.ltb_spec (blen (A ++ P)) (blen (A ++ P) + blen (units bf))) as [V|V].
          - rewrite <- (app_assoc (A ++ P)). rewrite (py_slice_mid (A ++ P) (units bf)) by lia. reflexivity.
          - rewrite (blen_zero (units bf)) by lia. rewrite app_nil_r. change (blen []) with 0. f_equal. lia. }
        assert (DD : (A ++ P) ++ units nals ++ rest = ((A ++ P) ++ units bf) ++ units af ++ rest) by (rewrite EN, units_app, <- !app_assoc; reflexivity).
        rewrite (ST _ DD). clear ST. rewrite DD.
        rewrite (py_slice_mid ((A ++ P) ++ units bf) (units af)) by (rewrite ?(blen_app (A ++ P) (units bf)); lia).
        replace (((A ++ P) ++ units bf) ++ units af ++ rest) with (((A ++ P) ++ units nals) ++ [] ++ rest) by (rewrite EN, units_app, <- !app_assoc; reflexivity).
        replace (blen (A ++ P) + blen (units nals)) with (blen ((A ++ P) ++ units nals)) by (rewrite (blen_app (A ++ P)); reflexivity).
        unfold rest. rewrite (IH ((A ++ P) ++ units nals) [] y o (pos + blen (units nals))).
        * f_equal. unfold s. rewrite <- !app_assoc. reflexivity.
        * rewrite !blen_app. change (blen []) with 0. lia.
  Qed.
End Table.
