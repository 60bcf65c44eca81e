(** Property theorems; proofs in SourceTheory.v, where the examples that meet the
    hypotheses stand beside each lemma. Generated by tools/gen_props.py. *)
From Coq Require Import ZifyBool ZifyNat.
From Verif Require Import Base BaseProofs BytesModel StrModel ConfigModel TimeModel Mp4Model InitModel MpdModel VodModel VodSpec SourceModel HttpModel HttpSpec
  XlinkProofs Mpd2Spec StepSpec SourceSpec SourceProofs SourceProofs2 SourceProofs3 VodTheory StepTheory.
From Verif Require Import SourceTheory.
Local Open Scope string_scope.
Open Scope Z_scope.

(** The analysis of a manifest file is the analysis of the representations with
    the files that its templates name. *)
Theorem C76_analysis_partial : forall fs parent name file root sets,
  manifest_says root sets -> directory (parent ++ "/" ++ name) -> no_slash name -> no_slash file ->
  Forall (set_there fs (parent ++ "/" ++ name)) sets ->
  exists vs, Forall2 (set_holds fs (parent ++ "/" ++ name)) sets vs /\
    analyze_source fs (parent ++ "/" ++ name ++ "/" ++ file) root = analyze name vs.
Proof. exact C76_analysis_partial_pf. Qed.
(* examples meeting the hypotheses: C76_analysis_partial_case *)
Print Assumptions C76_analysis_partial.

(** The server then has the analyzed content: the configuration that was written
    describes the files it serves. *)
Theorem C76_served_partial : forall fs parent name file root sets cfg ms s v,
  manifest_says root sets -> directory (parent ++ "/" ++ name) -> no_slash name -> no_slash file ->
  Forall (set_there fs (parent ++ "/" ++ name)) sets ->
  Forall (fun st => ls_media st = mk_template "" [("RepresentationID", "/"); ("Number", ".m4s")] /\
                    Forall (fun p => plain_id (fst p)) (ls_reps st)) sets ->
  strip name = name -> reads_from s name fs (parent ++ "/" ++ name) ->
  analyze_source fs (parent ++ "/" ++ name ++ "/" ++ file) root = Ok (cfg, ms) ->
  read_config (write_config cfg) = Ok v -> st_vod s name = Ok v ->
  exists vs, Forall2 (set_holds fs (parent ++ "/" ++ name)) sets vs /\ published s name name vs cfg ms /\
    Forall (fun vset => Forall (stores s name) (vs_reps vset)) vs.
Proof. exact C76_served_partial_pf. Qed.
(* examples meeting the hypotheses: C76_served_partial_case *)
Print Assumptions C76_served_partial.

Theorem C76_bandwidth_refuted : exists fs root sets vs out,
  manifest_says root sets /\ Forall2 (set_holds fs "vod/content") sets vs /\ analyze "content" vs = Ok out /\
  analyze_source fs "vod/content/Manifest.mpd" root = Err "FileNotFoundError".
Proof. exact C76_bandwidth_refuted_pf. Qed.
Print Assumptions C76_bandwidth_refuted.

Theorem C76_start_number_refuted : exists fs t out,
  get "startNumber" (Elem "SegmentTemplate" t "" []) = Some "1" /\
  analyze_source fs "vod/content/Manifest.mpd" (ex_root [ex_aset t "video" "V300" "300000"]) = Ok out /\
  analyze_source fs "vod/content/Manifest.mpd" (ex_root [ex_aset (without_start t) "video" "V300" "300000"]) = Err "TypeError".
Proof. exact C76_start_number_refuted_pf. Qed.
Print Assumptions C76_start_number_refuted.

(** A SegmentTemplate may be in the Representation; the analyzer then fails. *)
Theorem C76_level_refuted : exists fs t out,
  analyze_source fs "vod/content/Manifest.mpd" (ex_root [ex_aset t "video" "V300" "300000"]) = Ok out /\
  analyze_source fs "vod/content/Manifest.mpd" (ex_root [Elem "AdaptationSet" [("contentType", "video")] ""
    [Elem "Representation" [("id", "V300"); ("bandwidth", "300000")] "" [Elem "SegmentTemplate" t "" []]]]) = Err "KeyError".
Proof. exact C76_level_refuted_pf. Qed.
Print Assumptions C76_level_refuted.

(** A name that only begins like the name of a segment counts as one: with a copy
    of a segment beside it, the analyzer reports a missing segment. *)
Theorem C76_copy_refuted : exists l b out,
  analyze_source (ex_fs [("vod/content/V300", l)]) "vod/content/Manifest.mpd" (ex_root [ex_aset (ex_template id_init id_media) "video" "V300" "300000"]) = Ok out /\
  analyze_source (ex_fs [("vod/content/V300", l ++ [("2.m4s.bak", b)])%list]) "vod/content/Manifest.mpd"
    (ex_root [ex_aset (ex_template id_init id_media) "video" "V300" "300000"]) = Err "DashAnalyzerError".
Proof. exact C76_copy_refuted_pf. Qed.
Print Assumptions C76_copy_refuted.

(** A file with a leading zero in its number is counted in the search for gaps,
    and not found afterwards: the analysis goes well and the loop ends there. *)
Theorem C76_zero_refuted : exists l b cfg ms,
  In ("02.m4s", b) l /\ In ("3.m4s", b) l /\
  analyze_source (ex_fs [("vod/content/V300", l)]) "vod/content/Manifest.mpd" (ex_root [ex_aset (ex_template id_init id_media) "video" "V300" "300000"]) = Ok (cfg, ms) /\
  vd_n cfg = 1.
Proof. exact C76_zero_refuted_pf. Qed.
Print Assumptions C76_zero_refuted.
