(** Language codes in media headers (C52). *)
From Coq Require Import ZifyBool ZifyNat.
From Verif Require Import Base BaseProofs BytesModel BoxSpec BytesProofs Mp4Model InitModel ChunkModel LangModel LangSpec.
Open Scope Z_scope.

Lemma chr_back : forall c, five_bits c -> chr (Z.land (ord c - 96) 31 + 96) = c.
Proof.
  intros c. unfold five_bits, chr, ord. destruct c as [[] [] [] [] [] [] [] []]; vm_compute; intros [H1 H2]; try reflexivity; exfalso; lia.
Qed.
Lemma bits_ok : forall c, five_bits c -> make_bits_from_lang_char c = Ok (ord c - 96).
Proof.
  intros c. unfold five_bits, make_bits_from_lang_char, ord. destruct c as [[] [] [] [] [] [] [] []]; vm_compute; intros [H1 H2]; try reflexivity; exfalso; lia.
Qed.
Lemma bits_err : forall c, ~ five_bits c -> make_bits_from_lang_char c = Err "ValueError".
Proof.
  intros c. unfold five_bits, make_bits_from_lang_char, ord. destruct c as [[] [] [] [] [] [] [] []]; vm_compute; intros H; try reflexivity; exfalso; lia.
Qed.
Lemma chr_ord : forall c, chr (ord c - 96 + 96) = c.
Proof. intros. unfold chr, ord. replace (Z.to_nat _) with (nat_of_ascii c) by lia. apply ascii_nat_embedding. Qed.
Lemma land31 : forall x, Z.land x 31 = x mod 32.
Proof. intros. change 31 with (Z.ones 5). rewrite Z.land_ones by lia. reflexivity. Qed.
Lemma sum_parts : forall x y z, 0 <= x < 32 -> 0 <= y < 32 -> 0 <= z < 32 ->
  let v := Z.shiftl x 10 + Z.shiftl y 5 + z in
  0 <= v < 32768 /\ Z.land (Z.shiftr v 10) 31 = x /\ Z.land (Z.shiftr v 5) 31 = y /\ Z.land v 31 = z.
Proof.
  intros x y z X Y Z_ v. unfold v. rewrite !Z.shiftl_mul_pow2, !Z.shiftr_div_pow2, !land31 by lia.
  change (2 ^ 10) with 1024. change (2 ^ 5) with 32. repeat split; try lia; Z.div_mod_to_equations; lia.
Qed.
Lemma five_range : forall c, five_bits c -> 0 <= ord c - 96 < 32.
Proof. unfold five_bits, ord. intros. lia. Qed.
Lemma lower_five : forall s, language_code s -> five_bit_code s.
Proof.
  intros s (a & b & c & -> & A & B & C). exists a, b, c. unfold five_bits, lower_letter in *. repeat split; lia.
Qed.

(** What the reader makes of a header whose parts are known. *)
Lemma send_app : forall n pre x post, blen x = n -> 0 < n ->
  send_u n (pre ++ x ++ post) (blen pre) = Ok (be_val x, blen pre + n).
Proof.
  intros n pre x post L N. unfold send_u. rewrite !blen_app. assert (P := blen_nonneg post).
  rewrite (proj2 (Z.ltb_lt _ _)), (proj2 (Z.leb_le _ _)) by lia.
  do 3 f_equal. apply bslice_mid. lia.
Qed.
Lemma bslice_in : forall pre box post a z, 0 <= a <= z -> z <= blen box ->
  bslice (blen pre + a) (blen pre + z) (pre ++ box ++ post) = bslice a z box.
Proof.
  intros. assert (P := blen_nonneg pre). rewrite bslice_app_r by lia.
  replace (blen pre + a - blen pre) with a by lia. replace (blen pre + z - blen pre) with z by lia.
  apply bslice_app_l; lia.
Qed.
Definition letters (v : Z) : string :=
  String (chr (Z.land (Z.shiftr v 10) 31 + 96)) (String (chr (Z.land (Z.shiftr v 5) 31 + 96)) (String (chr (Z.land v 31 + 96)) EmptyString)).
Lemma read_parts : forall pre post h v f1 f2 f3 cr mo ts du la pr,
  blen h = 8 -> blen cr = (if v =? 0 then 4 else 8) -> blen mo = (if v =? 0 then 4 else 8) ->
  blen du = (if v =? 0 then 4 else 8) -> blen ts = 4 -> blen la = 2 ->
  let box := h ++ [v; f1; f2; f3] ++ cr ++ mo ++ ts ++ du ++ la ++ pr in
  mdhd_at (pre ++ box ++ post) (blen pre) (blen box) =
    Ok (mk_mdhd (be_val cr) (be_val mo) (be_val ts) (be_val du) (letters (be_val la))).
Proof.
  intros pre post h v f1 f2 f3 cr mo ts du la pr Lh Lc Lm Ld Lt Ll box.
  assert (LB : blen box = 12 + blen (cr ++ mo ++ ts ++ du ++ la ++ pr)).
  { unfold box. rewrite !blen_app, Lh. change (blen [v; f1; f2; f3]) with 4. lia. }
  assert (NB := blen_nonneg (cr ++ mo ++ ts ++ du ++ la ++ pr)).
  unfold mdhd_at, full_at. rewrite !bslice_in by lia.
  assert (E : forall a z, 0 <= a <= z -> z <= 4 -> bslice (8 + a) (8 + z) box = bslice a z [v; f1; f2; f3]).
  { intros. rewrite <- Lh. apply bslice_in; auto. }
  change (bslice 8 9 box) with (bslice (8 + 0) (8 + 1) box). change (bslice 9 12 box) with (bslice (8 + 1) (8 + 4) box).
  rewrite !E by lia. change (bslice 0 1 [v; f1; f2; f3]) with [v]. change (bslice 1 4 [v; f1; f2; f3]) with [f1; f2; f3].
  cbn [byte_at nth_error Z.to_nat bind]. unfold str_to_sint32. change (blen [0; f1; f2; f3] =? 4) with true. cbv iota. cbn [bind].
  assert (B : bslice 12 (blen box) box = cr ++ mo ++ ts ++ du ++ la ++ pr).
  { rewrite LB. unfold box. set (body := cr ++ _). rewrite app_assoc. rewrite bslice_app_r; [|rewrite blen_app, Lh; change (blen [v; f1; f2; f3]) with 4; lia].
    rewrite blen_app, Lh. change (blen [v; f1; f2; f3]) with 4. replace (12 - (8 + 4)) with 0 by lia. rewrite bslice_0.
    apply btake_all. lia. }
  rewrite B. clear E B LB NB. set (w := if v =? 0 then 4 else 8) in *. assert (W : 0 < w) by (unfold w; destruct (v =? 0); lia). clearbody w.
  assert (S0 := send_app w [] cr (mo ++ ts ++ du ++ la ++ pr) Lc W). cbn [app] in S0. change (blen []) with 0 in S0.
  replace (0 + w) with (blen cr) in S0 by lia. rewrite S0. cbn [bind].
  rewrite (send_app w cr mo) by lia. cbn [bind].
  replace (blen cr + w) with (blen (cr ++ mo)) by (rewrite blen_app; lia). rewrite (app_assoc cr mo).
  rewrite (send_app 4 (cr ++ mo) ts) by lia. cbn [bind].
  replace (blen (cr ++ mo) + 4) with (blen ((cr ++ mo) ++ ts)) by (rewrite blen_app; lia). rewrite (app_assoc (cr ++ mo) ts).
  rewrite (send_app w ((cr ++ mo) ++ ts) du) by lia. cbn [bind].
  replace (blen ((cr ++ mo) ++ ts) + w) with (blen (((cr ++ mo) ++ ts) ++ du)) by (rewrite (blen_app ((cr ++ mo) ++ ts) du); lia).
  rewrite (app_assoc ((cr ++ mo) ++ ts) du).
  rewrite (send_app 2 (((cr ++ mo) ++ ts) ++ du) la) by lia. cbn [bind]. reflexivity.
Qed.

Lemma letters_code : forall a b c, five_bits a -> five_bits b -> five_bits c ->
  letters (Z.shiftl (ord a - 96) 10 + Z.shiftl (ord b - 96) 5 + (ord c - 96)) = String a (String b (String c EmptyString)).
Proof.
  intros a b c A B C. apply five_range in A, B, C. destruct (sum_parts _ _ _ A B C) as (_ & X & Y & Z_).
  unfold letters. rewrite X, Y, Z_, !chr_ord. reflexivity.
Qed.
Lemma land_mod : forall x n, 0 <= n -> Z.land x (Z.ones n) = x mod 2 ^ n.
Proof. intros. apply Z.land_ones. auto. Qed.
Lemma s32_len : forall x, blen (serialize_u32 x) = 4.
Proof. intros. apply (blen_be_bytes 4). Qed.
Lemma s32_val : forall x, be_val (serialize_u32 x) = x mod 4294967296.
Proof.
  intros. unfold serialize_u32. change 4294967295 with (Z.ones 32). rewrite land_mod by lia.
  apply be4_val. change (2 ^ 32) with 4294967296. apply Z.mod_pos_bound. lia.
Qed.
Lemma s16_ok : forall x, 0 <= x < 65536 -> serialize_u16 x = Ok (be_bytes 2 x).
Proof.
  intros. unfold serialize_u16. change 1048575 with (Z.ones 20). rewrite land_mod by lia.
  rewrite Z.mod_small by (change (2 ^ 20) with 1048576; lia). rewrite (proj2 (Z.ltb_lt _ _)) by lia. reflexivity.
Qed.
Lemma box_read : forall ts dur code pre post, 0 <= code < 65536 ->
  let box := serialize_u32 32 ++ bstr "mdhd" ++ serialize_u32 0 ++ serialize_u32 0 ++ serialize_u32 0 ++
      serialize_u32 ts ++ serialize_u32 dur ++ be_bytes 2 code ++ be_bytes 2 0 in
  mdhd_at (pre ++ box ++ post) (blen pre) 32 =
    Ok (mk_mdhd 0 0 (ts mod 4294967296) (dur mod 4294967296) (letters code)).
Proof.
  intros ts dur code pre post C box.
  assert (R := read_parts pre post (serialize_u32 32 ++ bstr "mdhd") 0 0 0 0 (serialize_u32 0) (serialize_u32 0) (serialize_u32 ts) (serialize_u32 dur)
    (be_bytes 2 code) (be_bytes 2 0) eq_refl eq_refl eq_refl (s32_len dur) (s32_len ts) (blen_be_bytes 2 code)).
  cbv zeta in R. rewrite !s32_val in R. rewrite be_val_be_bytes in R by (cbn; lia).
  exact R.
Qed.
Lemma written_ok : forall ts dur lang, exists code, 0 <= code < 65536 /\
  mdhd_bytes ts dur lang = Ok (serialize_u32 32 ++ bstr "mdhd" ++ serialize_u32 0 ++ serialize_u32 0 ++ serialize_u32 0 ++
      serialize_u32 ts ++ serialize_u32 dur ++ be_bytes 2 code ++ be_bytes 2 0) /\
  ((five_bit_code lang /\ letters code = lang) \/ (~ five_bit_code lang /\ letters code = "und"%string)).
Proof.
  intros ts dur lang.
  assert (G : (exists code, lang_bits lang = Ok code /\ 0 <= code < 65536 /\ five_bit_code lang /\ letters code = lang) \/
              (exists e, lang_bits lang = Err e /\ ~ five_bit_code lang)).
  { destruct lang as [|a [|b [|c [|d r]]]].
    - right. exists "ValueError"%string. split; [reflexivity|]. intros (? & ? & ? & E & _). discriminate.
    - right. exists "ValueError"%string. split; [reflexivity|]. intros (? & ? & ? & E & _). discriminate.
    - right. exists "ValueError"%string. split; [reflexivity|]. intros (? & ? & ? & E & _). discriminate.
    - assert (D : forall x, five_bits x \/ ~ five_bits x) by (intros; unfold five_bits; lia).
      cbn [lang_bits]. destruct (D a) as [A|A]; [|right; rewrite (bits_err a A); cbn [bind]; eexists; split; [reflexivity|];
        intros (? & ? & ? & E & ? & ? & ?); injection E as <- <- <-; auto].
      rewrite (bits_ok a A). cbn [bind].
      destruct (D b) as [B|B]; [|right; rewrite (bits_err b B); cbn [bind]; eexists; split; [reflexivity|];
        intros (? & ? & ? & E & ? & ? & ?); injection E as <- <- <-; auto].
      rewrite (bits_ok b B). cbn [bind].
      destruct (D c) as [C|C]; [|right; rewrite (bits_err c C); cbn [bind]; eexists; split; [reflexivity|];
        intros (? & ? & ? & E & ? & ? & ?); injection E as <- <- <-; auto].
      rewrite (bits_ok c C). cbn [bind]. left. eexists. split; [reflexivity|].
      destruct (sum_parts _ _ _ (five_range _ A) (five_range _ B) (five_range _ C)) as (R & _). cbv zeta in R.
      split; [clear -R; lia|]. split; [exists a, b, c; auto|]. apply letters_code; auto.
    - right. exists "ValueError"%string. split; [reflexivity|]. intros (? & ? & ? & E & _). discriminate. }
  destruct G as [(code & E & R & F & L)|(e & E & F)].
  - exists code. split; [exact R|]. split; [|left; auto]. unfold mdhd_bytes. rewrite E, s16_ok by auto. cbn [bind].
    rewrite s16_ok by lia. cbn [bind]. reflexivity.
  - exists 21956. split; [lia|]. split; [|right; split; [exact F|reflexivity]]. unfold mdhd_bytes. rewrite E, s16_ok by lia. cbn [bind].
    rewrite s16_ok by lia. cbn [bind]. reflexivity.
Qed.

(** C52: a language code written by MDHDBox is read back by mdhd_box, wherever
    in the file the box is; the time scale and the duration too. *)
Lemma C52_boxes_pf : forall timescale duration lang pre post,
  language_code lang -> 0 <= timescale < 4294967296 -> 0 <= duration < 4294967296 ->
  exists box, mdhd_bytes timescale duration lang = Ok box /\ media_header box /\
    mdhd_at (pre ++ box ++ post) (blen pre) (blen box) = Ok (mk_mdhd 0 0 timescale duration lang).
Proof.
  intros ts dur lang pre post L T D. destruct (written_ok ts dur lang) as (code & C & E & [(_ & F)|(F & _)]).
  2:{ exfalso. apply F, lower_five, L. }
  eexists. split; [exact E|]. split.
  - unfold media_header. split; [reflexivity|]. left. split; reflexivity.
  - assert (R := box_read ts dur code pre post C). cbv zeta in R. rewrite F, !Z.mod_small in R by lia. exact R.
Qed.
(** Any other text: read back unchanged when it is three characters that fit in
    five bits, else "und". *)
Lemma C52_any_text_pf : forall timescale duration lang pre post,
  exists box m, mdhd_bytes timescale duration lang = Ok box /\
    mdhd_at (pre ++ box ++ post) (blen pre) (blen box) = Ok m /\
    (five_bit_code lang -> md_language m = lang) /\ (~ five_bit_code lang -> md_language m = "und"%string).
Proof.
  intros ts dur lang pre post. destruct (written_ok ts dur lang) as (code & C & E & F).
  do 2 eexists. split; [exact E|]. split; [exact (box_read ts dur code pre post C)|]. cbn [md_language]. tauto.
Qed.

(** The other writer: StppInitFilter.process_mdhd. *)
Lemma split_at : forall n b, 0 <= n <= blen b -> exists x y, b = x ++ y /\ blen x = n.
Proof. intros n b H. exists (btake n b), (bdrop n b). rewrite btake_drop, blen_btake by lia. split; [reflexivity|lia]. Qed.
Lemma four : forall b, blen b = 4 -> exists w x y z, b = [w; x; y; z].
Proof. intros [|w [|x [|y [|z [|? ?]]]]] H; try (cbv in H; discriminate); try (unfold blen in H; cbn in H; lia). exists w, x, y, z. reflexivity. Qed.
Lemma shift16 : forall v, 0 <= v < 32768 -> be_bytes 4 (Z.shiftl v 16) = be_bytes 2 v ++ [0; 0].
Proof.
  intros v V. rewrite Z.shiftl_mul_pow2 by lia. change (2 ^ 16) with 65536.
  cbn [be_bytes app].
  replace (v * 65536 / 256) with (v * 256) by (Z.div_mod_to_equations; lia).
  replace (v * 65536 mod 256) with 0 by (Z.div_mod_to_equations; lia).
  replace (v * 256 / 256) with v by (Z.div_mod_to_equations; lia).
  replace (v * 256 mod 256) with 0 by (Z.div_mod_to_equations; lia). reflexivity.
Qed.
Lemma header_split : forall box, media_header box -> exists h v f1 f2 f3 rest,
  box = h ++ [v; f1; f2; f3] ++ rest /\ blen h = 8 /\ be_val (btake 4 h) = blen box /\
  ((v = 0 /\ blen rest = 20) \/ (v = 1 /\ blen rest = 32)).
Proof.
  intros box [S V]. assert (B : 12 <= blen box) by (destruct V as [[_ ->]|[_ ->]]; lia).
  destruct (split_at 8 box) as (h & t & E & H); [lia|]. subst box.
  destruct (split_at 4 t) as (f & rest & E & F); [rewrite blen_app in B; lia|]. subst t.
  destruct (four f F) as (v & f1 & f2 & f3 & ->). exists h, v, f1, f2, f3, rest.
  split; [reflexivity|]. split; [exact H|]. split.
  - rewrite <- S. f_equal. rewrite btake_app_l by lia. reflexivity.
  - assert (N : nth_error (h ++ [v; f1; f2; f3] ++ rest) 8 = Some v).
    { rewrite nth_error_app2; [|unfold blen in H; lia]. replace (8 - List.length h)%nat with 0%nat by (unfold blen in H; lia). reflexivity. }
    rewrite N in V. rewrite !blen_app, H in V. change (blen [v; f1; f2; f3]) with 4 in V.
    destruct V as [[X Y]|[X Y]]; injection X as ->; [left|right]; split; auto; lia.
Qed.
Definition fits (version : Z) (created : option Z) : Prop :=
  match created with
  | Some t => 0 <= t < (if version =? 1 then 18446744073709551616 else 4294967296)
  | None => True
  end.
Lemma C52_stpp_pf : forall lang timescale created box pre post,
  language_code lang -> media_header box -> 0 <= timescale < 4294967296 ->
  (forall v, nth_error box 8 = Some v -> fits v created) ->
  exists out m, stpp_mdhd lang timescale created box = Ok out /\ blen out = blen box /\ btake 12 out = btake 12 box /\
    mdhd_at (pre ++ out ++ post) (blen pre) (blen out) = Ok m /\
    md_language m = lang /\ md_timescale m = timescale /\ md_duration m = 0.
Proof.
  intros lang ts created box pre post L M T F. apply lower_five in L. destruct L as (a & b & c & -> & A & B & C).
  destruct (header_split _ M) as (h & v & f1 & f2 & f3 & rest & -> & H & _ & V).
  assert (N : nth_error (h ++ [v; f1; f2; f3] ++ rest) 8 = Some v).
  { rewrite nth_error_app2; [|unfold blen in H; lia]. replace (8 - List.length h)%nat with 0%nat by (unfold blen in H; lia). reflexivity. }
  specialize (F v N).
  destruct (sum_parts _ _ _ (five_range _ A) (five_range _ B) (five_range _ C)) as (R & _). cbv zeta in R.
  set (code := Z.shiftl (ord a - 96) 10 + Z.shiftl (ord b - 96) 5 + (ord c - 96)) in *.
  assert (LC : letters code = String a (String b (String c EmptyString))) by (apply letters_code; auto).
  assert (P : uint32_to_str (Z.shiftl code 16) = Ok (be_bytes 2 code ++ [0; 0])).
  { rewrite p32_ok, shift16 by (rewrite ?Z.shiftl_mul_pow2 by lia; change (2 ^ 16) with 65536; lia). reflexivity. }
  assert (T12 : btake 12 (h ++ [v; f1; f2; f3] ++ rest) = h ++ [v; f1; f2; f3]).
  { rewrite app_assoc. rewrite btake_app_l by (rewrite blen_app, H; cbn; lia). apply btake_all. rewrite blen_app, H. cbn. lia. }
  assert (I : exists cr mo, let w := if v =? 0 then 4 else 8 in blen cr = w /\ blen mo = w /\
    insert_timing_data ts created (h ++ [v; f1; f2; f3] ++ rest) =
      Ok ((h ++ [v; f1; f2; f3]) ++ (cr ++ mo) ++ be_bytes 4 ts ++ be_bytes (Z.to_nat w) 0)).
  { unfold insert_timing_data, byte_at. change (Z.to_nat 8) with 8%nat. rewrite N. cbn [bind].
    assert (S : forall z, 0 <= z <= blen rest -> bslice 12 (12 + z) (h ++ [v; f1; f2; f3] ++ rest) = btake z rest).
    { intros z Z0. rewrite app_assoc. rewrite bslice_app_r by (rewrite blen_app, H; cbn; lia).
      rewrite blen_app, H. change (blen [v; f1; f2; f3]) with 4. replace (12 - (8 + 4)) with 0 by lia.
      rewrite bslice_0. f_equal. lia. }
    rewrite T12. destruct V as [[-> V]|[-> V]].
    - change (0 =? 1) with false. change (0 =? 0) with true. cbv iota zeta. cbn [fits] in F.
      assert (X : forall x, 0 <= x < 4294967296 -> blen (be_bytes 4 x) = 4) by (intros; apply (blen_be_bytes 4)).
      destruct created as [t|]; cbn [fits] in F; [destruct (t =? 0)|].
      + change (bslice 12 20) with (bslice 12 (12 + 8)). rewrite S by lia. cbn [bind]. rewrite !p32_ok by lia. cbn [bind].
        destruct (split_at 4 (btake 8 rest)) as (x & y & E & Lx); [rewrite blen_btake; lia|].
        exists x, y. assert (Y : blen (btake 8 rest) = 8) by (rewrite blen_btake; lia). rewrite E in *. rewrite blen_app in Y.
        repeat split; auto; lia.
      + rewrite p32_ok by (change (0 =? 1) with false in F; lia). cbn [bind]. rewrite !p32_ok by lia. cbn [bind].
        exists (be_bytes 4 t), (be_bytes 4 t). repeat split; apply (blen_be_bytes 4).
      + change (bslice 12 20) with (bslice 12 (12 + 8)). rewrite S by lia. cbn [bind]. rewrite !p32_ok by lia. cbn [bind].
        destruct (split_at 4 (btake 8 rest)) as (x & y & E & Lx); [rewrite blen_btake; lia|].
        exists x, y. assert (Y : blen (btake 8 rest) = 8) by (rewrite blen_btake; lia). rewrite E in *. rewrite blen_app in Y.
        repeat split; auto; lia.
    - change (1 =? 1) with true. change (1 =? 0) with false. cbv iota zeta.
      destruct created as [t|]; cbn [fits] in F; [destruct (t =? 0)|].
      + change (bslice 12 28) with (bslice 12 (12 + 16)). rewrite S by lia. cbn [bind]. rewrite p32_ok, p64_ok by lia. cbn [bind].
        destruct (split_at 8 (btake 16 rest)) as (x & y & E & Lx); [rewrite blen_btake; lia|].
        exists x, y. assert (Y : blen (btake 16 rest) = 16) by (rewrite blen_btake; lia). rewrite E in *. rewrite blen_app in Y.
        repeat split; auto; lia.
      + change (1 =? 1) with true in F. rewrite p64_ok by lia. cbn [bind]. rewrite p32_ok, p64_ok by lia. cbn [bind].
        exists (be_bytes 8 t), (be_bytes 8 t). repeat split; apply (blen_be_bytes 8).
      + change (bslice 12 28) with (bslice 12 (12 + 16)). rewrite S by lia. cbn [bind]. rewrite p32_ok, p64_ok by lia. cbn [bind].
        destruct (split_at 8 (btake 16 rest)) as (x & y & E & Lx); [rewrite blen_btake; lia|].
        exists x, y. assert (Y : blen (btake 16 rest) = 16) by (rewrite blen_btake; lia). rewrite E in *. rewrite blen_app in Y.
        repeat split; auto; lia. }
  destruct I as (cr & mo & I). cbv zeta in I. destruct I as (Lc & Lm & I).
  assert (WN : Z.of_nat (Z.to_nat (if v =? 0 then 4 else 8)) = if v =? 0 then 4 else 8) by (destruct (v =? 0); reflexivity).
  set (du := be_bytes (Z.to_nat (if v =? 0 then 4 else 8)) 0) in *.
  assert (Ld : blen du = if v =? 0 then 4 else 8) by (unfold du; rewrite blen_be_bytes; exact WN).
  set (out := h ++ [v; f1; f2; f3] ++ cr ++ mo ++ be_bytes 4 ts ++ du ++ be_bytes 2 code ++ [0; 0]).
  exists out, (mk_mdhd (be_val cr) (be_val mo) ts 0 (String a (String b (String c EmptyString)))).
  split; [|split; [|split; [|split; [|cbn; auto]]]].
  - unfold stpp_mdhd. rewrite I. cbn [bind]. fold code. rewrite P. cbn [bind]. f_equal. unfold out. rewrite <- !app_assoc. reflexivity.
  - unfold out. rewrite !blen_app, H, Lc, Lm, Ld, !blen_be_bytes. change (blen [v; f1; f2; f3]) with 4. change (blen [0; 0]) with 2.
    destruct V as [[-> ->]|[-> ->]]; reflexivity.
  - rewrite T12. unfold out. rewrite app_assoc. rewrite btake_app_l by (rewrite blen_app, H; cbn; lia). apply btake_all. rewrite blen_app, H. cbn. lia.
  - unfold out. rewrite (read_parts pre post h v f1 f2 f3 cr mo (be_bytes 4 ts) du (be_bytes 2 code) [0; 0] H Lc Lm Ld (blen_be_bytes 4 ts) (blen_be_bytes 2 code)).
    rewrite be4_val by lia. rewrite (be_val_be_bytes 2) by (cbn; lia). rewrite LC.
    f_equal. unfold du. rewrite be_val_be_bytes by (destruct (v =? 0); cbn; lia). reflexivity.
Qed.

(** The live init filter zeroes the duration of a header and keeps the rest:
    the language read from it is the same. *)
Lemma C52_live_pf : forall box st pre post m, bytes_ok box -> media_header box ->
  mdhd_at (pre ++ box ++ post) (blen pre) (blen box) = Ok m ->
  exists out, l_mdhd box st = Ok (out, st) /\ blen out = blen box /\
    mdhd_at (pre ++ out ++ post) (blen pre) (blen out) =
      Ok (mk_mdhd (md_created m) (md_modified m) (md_timescale m) 0 (md_language m)).
Proof.
  intros box st pre post m OK M R. destruct (header_split _ M) as (h & v & f1 & f2 & f3 & rest & -> & H & _ & V).
  set (w := if v =? 0 then 4 else 8).
  assert (SP : exists cr mo ts du la pr, rest = cr ++ mo ++ ts ++ du ++ la ++ pr /\ blen cr = w /\ blen mo = w /\ blen ts = 4 /\ blen du = w /\ blen la = 2).
  { assert (LR : 3 * w + 8 = blen rest) by (unfold w; destruct V as [[-> V]|[-> V]]; cbn; lia).
    assert (0 < w) by (unfold w; destruct (v =? 0); lia).
    destruct (split_at w rest) as (cr & r1 & E1 & L1); [lia|]. rewrite E1 in LR. rewrite blen_app in LR.
    destruct (split_at w r1) as (mo & r2 & E2 & L2); [lia|]. rewrite E2 in LR. rewrite blen_app in LR.
    destruct (split_at 4 r2) as (ts & r3 & E3 & L3); [lia|]. rewrite E3 in LR. rewrite blen_app in LR.
    destruct (split_at w r3) as (du & r4 & E4 & L4); [lia|]. rewrite E4 in LR. rewrite blen_app in LR.
    destruct (split_at 2 r4) as (la & pr & E5 & L5); [lia|].
    exists cr, mo, ts, du, la, pr. subst. repeat split; auto. }
  destruct SP as (cr & mo & ts & du & la & pr & -> & Lc & Lm & Lt & Ld & Ll).
  rewrite (read_parts pre post h v f1 f2 f3 cr mo ts du la pr H Lc Lm Ld Lt Ll) in R. injection R as <-.
  set (z := repeat 0 (Z.to_nat w)).
  assert (Lz : blen z = w) by (unfold z, blen; rewrite repeat_length; unfold w; destruct (v =? 0); reflexivity).
  exists (h ++ [v; f1; f2; f3] ++ cr ++ mo ++ ts ++ z ++ la ++ pr).
  assert (ZA : forall n, n = 16 + 2 * w -> zero_at n w (h ++ [v; f1; f2; f3] ++ cr ++ mo ++ ts ++ du ++ la ++ pr) = h ++ [v; f1; f2; f3] ++ cr ++ mo ++ ts ++ z ++ la ++ pr).
  { intros n ->. unfold zero_at. fold z.
    set (front := h ++ [v; f1; f2; f3] ++ cr ++ mo ++ ts).
    assert (LF : blen front = 16 + 2 * w) by (unfold front; rewrite !blen_app, H, Lc, Lm, Lt; change (blen [v; f1; f2; f3]) with 4; lia).
    replace (h ++ [v; f1; f2; f3] ++ cr ++ mo ++ ts ++ du ++ la ++ pr) with (front ++ du ++ la ++ pr) by (unfold front; rewrite <- !app_assoc; reflexivity).
    rewrite <- LF, btake_len, (app_assoc front du). replace (blen front + w) with (blen (front ++ du)) by (rewrite blen_app; lia). rewrite bdrop_len.
    unfold front. rewrite <- !app_assoc. reflexivity. }
  split; [|split].
  - unfold l_mdhd, byte_at. rewrite nth_error_app2; [|unfold blen in H; cbn; lia].
    replace (Z.to_nat 8 - List.length h)%nat with 0%nat by (unfold blen in H; lia). cbn [nth_error app bind].
    destruct V as [[-> V]|[-> V]].
    + change (0 =? 1) with false. cbv iota. do 2 f_equal. exact (ZA 24 eq_refl).
    + change (1 =? 1) with true. cbv iota. do 2 f_equal. exact (ZA 32 eq_refl).
  - rewrite !blen_app, Lz, Ld. reflexivity.
  - rewrite (read_parts pre post h v f1 f2 f3 cr mo ts z la pr H Lc Lm Lz Lt Ll). cbn [md_created md_modified md_timescale md_language].
    f_equal. f_equal. unfold z, w. destruct (v =? 0); reflexivity.
Qed.

(** Finding: with the templates as str literals, Python 3 cannot unpack them, so
    neither creator ever produces a segment. *)
Lemma C52_creators_fail_pf : forall more rest,
  create_init_segment more rest = Err "TypeError" /\ create_media_segment more rest = Err "TypeError".
Proof. intros. split; reflexivity. Qed.

(** Examples *)
Definition swe : string := "swe".
Lemma swe_code : language_code swe.
Proof. exists "s"%char, "w"%char, "e"%char. unfold lower_letter. cbn. repeat split; lia. Qed.
Example ex_C52_boxes : language_code swe /\
  mdhd_bytes 90000 0 swe = Ok [0;0;0;32;109;100;104;100;0;0;0;0;0;0;0;0;0;0;0;0;0;1;95;144;0;0;0;0;78;229;0;0].
Proof. split; [exact swe_code|reflexivity]. Qed.
Example ex_C52_any : exists box m, mdhd_bytes 1 0 "Swe"%string = Ok box /\ mdhd_at box 0 32 = Ok m /\ md_language m = "und"%string.
Proof. do 2 eexists. split; [reflexivity|]. split; [reflexivity|reflexivity]. Qed.
(** the header of the template, lines 55-56, with "eng" *)
Definition tmpl_mdhd : bytes := [0;0;0;32] ++ bstr "mdhd" ++ [0;0;0;0;0;0;0;0;0;0;0;0;0;0;3;232;0;0;0;0;21;199;0;0].
Lemma tmpl_header : media_header tmpl_mdhd.
Proof. split; [reflexivity|]. left. split; reflexivity. Qed.
Example ex_C52_stpp : exists out m, stpp_mdhd swe 1000 (Some 5) tmpl_mdhd = Ok out /\ mdhd_at out 0 32 = Ok m /\ md_language m = swe /\ md_created m = 5.
Proof. do 2 eexists. split; [reflexivity|]. split; [reflexivity|]. split; reflexivity. Qed.
Example ex_C52_live : exists out m, l_mdhd tmpl_mdhd 0 = Ok (out, 0) /\ mdhd_at out 0 32 = Ok m /\ md_language m = "eng"%string.
Proof. do 2 eexists. split; [reflexivity|]. split; reflexivity. Qed.
