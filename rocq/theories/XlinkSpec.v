(** The manifest as text: periods, the links put in their place, and when the
    text of a period id tells where the period is.  Nothing here is taken from
    XlinkModel.v except, at the end, the element writer. *)
From Verif Require Import Base MpdModel XlinkModel.
Local Open Scope string_scope.
Open Scope Z_scope.

(** [p] occurs in [s]. *)
Definition occurs (p s : string) : Prop := exists a b, s = a ++ p ++ b.
Definition lacks (s p : string) : Prop := ~ occurs p s.

(** A Period element as text: the number in its id, the other attributes as
    written, what it contains, and what follows it up to the next period. *)
Record ptext := mk_ptext { pt_nr : Z; pt_attrs : string; pt_body : string; pt_gap : string }.
Definition pt_id (p : ptext) : string := "p" ++ print_Z (pt_nr p).
Definition pt_tag (attrs : string) (p : ptext) : string := "<Period id=""" ++ pt_id p ++ """" ++ attrs ++ ">".
(** The period as it stands in the manifest. *)
Definition pt_text (p : ptext) : string := pt_tag (pt_attrs p) p ++ pt_body p ++ "</Period>".
(** The period with an AssetIdentifier as its first child. *)
Definition pt_asset (p : ptext) : string :=
  pt_tag (pt_attrs p) p ++ String "010"
    "<AssetIdentifier schemeIdUri=""urn:org:dashif:asset-id:2013"" value=""md:cid:EIDR:10.5240%2f0EFB-02CD-126E-8092-1E49-W""></AssetIdentifier>"
  ++ pt_body p ++ "</Period>".
Fixpoint periods_text (l : list ptext) : string :=
  match l with [] => "" | p :: r => pt_text p ++ pt_gap p ++ periods_text r end.
Definition document (head : string) (l : list ptext) : string := head ++ periods_text l.
(** The same with other texts in the places of the periods. *)
Fixpoint weave (outs : list string) (l : list ptext) : string :=
  match outs, l with
  | o :: outs', p :: r => o ++ pt_gap p ++ weave outs' r
  | _, _ => ""
  end.

(** The parts are what they claim to be: the attributes are a part of one tag,
    and no period tag is hidden in the other parts. *)
Definition pt_fine (p : ptext) : Prop :=
  lacks (pt_attrs p) "<" /\ lacks (pt_attrs p) ">" /\ (pt_attrs p = "" \/ exists a, pt_attrs p = a ++ """")
  /\ lacks (pt_body p) "<Period " /\ lacks (pt_body p) "</Period>" /\ lacks (pt_gap p) "<Period ".
Definition fine (head : string) (l : list ptext) : Prop := lacks head "<Period " /\ Forall pt_fine l.

(** The id of [p] is not found in the text before its tag. *)
Definition found_first (head : string) (l : list ptext) : Prop :=
  forall l1 p l2, l = (l1 ++ p :: l2)%list -> lacks (document head l1) (pt_id p).

(** Where a link leads, by the ad option. *)
Definition remote (ad : Z) (base filename : string) (p : ptext) : string :=
  if ad =? 1 then "http://vm1.dashif.org/dynamicxlink/ad.php?id=6_ad"
  else if ad =? 2 then "http://vm1.dashif.org/dynamicxlink/ad.php?id=6_ad_twoperiods"
  else if ad =? 3 then "http://vm1.dashif.org/dynamicxlink/ad.php?id=6_ad_twoperiods_withremote"
  else if ad =? 4 then "http://vm1.dashif.org/dynamicxlink/invalidurl.php"
  else if ad =? 5 then "http://vm1.dashif.org/dynamicxlink/ad.php?id=6_ad"
  else base ++ filename ++ "+" ++ pt_id p ++ ".period".
(** The remote period element; ad option 5 gives it the old content as default. *)
Definition pt_link (ad : Z) (base filename : string) (p : ptext) : string :=
  "<Period xlink:href=""" ++ remote ad base filename p
  ++ """ xlink:actuate=""onLoad"" xmlns:xlink=""http://www.w3.org/1999/xlink"">"
  ++ (if ad =? 5 then String "010" "<!--Default content that will be played if the xlink is not able to load.-->" ++ pt_body p else "")
  ++ "</Period>".

(** Period [i] of the list is to be linked: its number is a multiple of [k],
    and with ads it is not the first such period. *)
Definition chosen (k : Z) (p : ptext) : Prop := (k | pt_nr p).
Definition linked (ad k : Z) (l : list ptext) (i : nat) : Prop :=
  exists p, nth_error l i = Some p /\ chosen k p
  /\ (0 < ad -> exists j q, (j < i)%nat /\ nth_error l j = Some q /\ chosen k q).

(** The manifest's base URL: one BaseURL without attributes, before the periods. *)
Definition has_base (head base : string) : Prop :=
  exists h1 h2, head = h1 ++ "<BaseURL>" ++ base ++ "</BaseURL>" ++ h2
  /\ lacks h1 "<BaseURL>" /\ lacks h2 "</BaseURL>" /\ lacks base "<" /\ lacks base """" .
(** The namespace declaration of the manifest. *)
Definition has_xmlns (head uri : string) : Prop :=
  exists h1 h2, head = h1 ++ "xmlns=""" ++ uri ++ """" ++ h2 /\ lacks h1 "xmlns=" /\ lacks uri """".

(** ** The same for element trees *)
(** Names as XML has them: nothing that could end the name or the tag. *)
Definition plain_name (s : string) : Prop := lacks s "<" /\ lacks s ">" /\ lacks s "/" /\ lacks s " ".
(** [P] holds for the tag, the attributes and the text of all elements. *)
Fixpoint all_elems (P : string -> list (string * string) -> string -> Prop) (x : xml) : Prop :=
  let 'Elem t a s k := x in P t a s /\ fold_right (fun y r => all_elems P y /\ r) True k.
Definition names_plain : xml -> Prop :=
  all_elems (fun t a _ => plain_name t /\ Forall (fun kv => plain_name (fst kv)) a).
(** No element is called [name]. *)
Definition nameless (name : string) : xml -> Prop := all_elems (fun t _ _ => t <> name).
(** No name, attribute value or text contains [w]. *)
Definition silent (w : string) (t : string) (a : list (string * string)) (s : string) : Prop :=
  lacks t w /\ Forall (fun kv => lacks (fst kv) w /\ lacks (snd kv) w) a /\ lacks s w.
Definition unmentioned (w : string) : xml -> Prop := all_elems (silent w).

(** A Period as it is expected: the id comes first and names a number, there
    is some content, and no Period inside. *)
Definition period_ready (y : xml) : Prop :=
  exists n a s k, y = Elem "Period" (("id", "p" ++ print_Z n) :: a) s k
  /\ (s <> "" \/ k <> []) /\ Forall (nameless "Period") k.
(** A manifest as it is expected; no id is mentioned before its period. *)
Definition manifest_ready (x : xml) : Prop :=
  exists a s kids, x = Elem "MPD" a s kids /\ names_plain x /\ kids <> []
  /\ Forall (fun y => (x_tag y = "Period" -> period_ready y) /\ (x_tag y <> "Period" -> nameless "Period" y)) kids
  /\ (forall k1 y k2 id, kids = (k1 ++ y :: k2)%list -> x_tag y = "Period" -> get "id" y = Some id ->
        silent id "MPD" a s /\ Forall (unmentioned id) k1).
(** Its only BaseURL element has no attributes and contains [url]. *)
Definition one_base (x : xml) (url : string) : Prop :=
  exists pre post, x_kids x = (pre ++ Elem "BaseURL" [] url [] :: post)%list
  /\ Forall (fun y => x_tag y <> "Period") pre /\ Forall (nameless "BaseURL") (pre ++ post)
  /\ url <> "" /\ lacks url """".

(** The text of a manifest with the given texts in place of its children. *)
Definition manifest_text (x : xml) (outs : list string) : string :=
  let 'Elem t a s _ := x in
  xml_intro ++ "<" ++ t ++ " xmlns=""urn:mpeg:dash:schema:mpd:2011""" ++ write_attrs a ++ ">" ++ escape false s
  ++ fold_right append "" outs ++ "</" ++ t ++ ">".
(** Child [i] is to be linked. *)
Definition period_nr (y : xml) (n : Z) : Prop := x_tag y = "Period" /\ get "id" y = Some ("p" ++ print_Z n).
Definition child_chosen (k : Z) (y : xml) : Prop := exists n, period_nr y n /\ (k | n).
Definition child_linked (ad k : Z) (kids : list xml) (i : nat) : Prop :=
  exists y, nth_error kids i = Some y /\ child_chosen k y
  /\ (0 < ad -> exists j z, (j < i)%nat /\ nth_error kids j = Some z /\ child_chosen k z).
(** The remote element for a Period, and the Period with an AssetIdentifier. *)
Definition content (y : xml) : string := escape false (x_text y) ++ write_kids (x_kids y).
Definition link_text (ad : Z) (base filename : string) (n : Z) (y : xml) : string :=
  pt_link ad base filename (mk_ptext n "" (content y) "").
Definition asset_text (y : xml) : string :=
  "<Period" ++ write_attrs (x_attrs y) ++ ">" ++ String "010"
    "<AssetIdentifier schemeIdUri=""urn:org:dashif:asset-id:2013"" value=""md:cid:EIDR:10.5240%2f0EFB-02CD-126E-8092-1E49-W""></AssetIdentifier>"
  ++ content y ++ "</Period>".
