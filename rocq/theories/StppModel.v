(** dashlib/stpp_generator/make_stpp_segments.py: the subtitle documents of the
    segments it creates.  Strings are ASCII here, so that encode('utf-8')
    (line 116) gives the same bytes. *)
From Verif Require Import Base BytesModel TimeModel LangModel.
Local Open Scope string_scope.
Open Scope Z_scope.

(** ["%0wd" % n] of lines 104 and 128: zeros up to width [w], after the sign *)
Fixpoint zeros (k : nat) : string := match k with O => "" | S k => String "0" (zeros k) end.
(** ["%0wd" % n] (make_stpp_segments.py 104, 128) *)
Definition pad (w : nat) (n : Z) : string :=
  if n <? 0 then "-" ++ zeros (w - 1 - String.length (print_Z (- n))) ++ print_Z (- n)
  else zeros (w - String.length (print_Z n)) ++ print_Z n.

(** make_stpp_segments.py 123-128 [create_time_string] *)
Definition create_time_string (time_ms : Z) : string :=
  let hours := time_ms / 3600000 in
  let time_ms := time_ms mod 3600000 in
  let minutes := time_ms / 60000 in
  let time_ms := time_ms mod 60000 in
  let seconds := time_ms / 1000 in
  let milliseconds := time_ms mod 1000 in
  pad 2 hours ++ ":" ++ pad 2 minutes ++ ":" ++ pad 2 seconds ++ "." ++ pad 3 milliseconds.

(** [range(0, stop, step)] (make_stpp_segments.py 100) *)
Definition range3 (stop step : Z) : result (list Z) :=
  if step =? 0 then Err "ValueError"
  else
    let n := if 0 <? step then (stop + step - 1) / step else (- stop - step - 1) / - step in
    Ok (map (fun k => Z.of_nat k * step) (seq 0 (Z.to_nat n))).

(** make_stpp_segments.py 108: the dictionary of a paragraph *)
Record par := mk_par { pr_begin : string; pr_end : string; pr_id : string; pr_text : string }.
(** make_stpp_segments.py 99-108: the paragraphs of a segment *)
Definition paragraphs (lang : string) (segment_duration resolution time : Z) : result (list par) :=
  let* rel_times := range3 segment_duration resolution in
  Ok (map (fun rel_time =>
        let start_time := create_time_string (time + rel_time) in
        let end_time := create_time_string (time + rel_time + resolution) in
        mk_par start_time end_time ("sub" ++ pad 5 (time + rel_time)) (lang ++ " : " ++ start_time)) rel_times).

(** make_stpp_segments.py 38-46, 56, 88 with stpp_creator.py 68-97: the template
    before the loop over the paragraphs, stripped at both ends *)
Definition tmpl_head : string := "<?xml version=""1.0"" encoding=""UTF-8""?>
<tt xmlns:ttp=""http://www.w3.org/ns/ttml#parameter"" xmlns=""http://www.w3.org/ns/ttml""
    xmlns:tts=""http://www.w3.org/ns/ttml#styling"" xmlns:ttm=""http://www.w3.org/ns/ttml#metadata""
    xmlns:ebuttm=""urn:ebu:metadata"" xmlns:ebutts=""urn:ebu:style""
    xml:lang=""en"" xml:space=""default""
    ttp:timeBase=""media""
    ttp:cellResolution=""32 15"">
  <head>
    <metadata>
      <ttm:title>DASH-IF Live Simulator</ttm:title>
      <ebuttm:documentMetadata>
        <ebuttm:conformsToStandard>urn:ebu:distribution:2014-01</ebuttm:conformsToStandard>
        <ebuttm:authoredFrameRate>30</ebuttm:authoredFrameRate>
      </ebuttm:documentMetadata>
    </metadata>
    <styling>
      <style xml:id=""s0"" tts:fontStyle=""normal"" tts:fontFamily=""sansSerif"" tts:fontSize=""100%"" tts:lineHeight=""normal""
      tts:color=""#FFFFFF"" tts:wrapOption=""noWrap"" tts:textAlign=""center"" />
      <style xml:id=""s1"" tts:color=""#00FF00"" tts:backgroundColor=""#000000"" ebutts:linePadding=""0.5c""/>
    </styling>
    <layout>
      <region xml:id=""r0"" tts:origin=""15% 80%"" tts:extent=""70% 20%"" tts:overflow=""visible"" tts:displayAlign=""before""/>
    </layout>
  </head>
  <body style=""s0"">
  
    <div region=""r0"">
      ".
(** make_stpp_segments.py 40-44: the text between the values of a paragraph *)
Definition tmpl_1 : string := "
      <p xml:id=""".
(** make_stpp_segments.py 41 *)
Definition tmpl_2 : string := """ begin=""".
(** make_stpp_segments.py 41 *)
Definition tmpl_3 : string := """ end=""".
(** make_stpp_segments.py 41-42 *)
Definition tmpl_4 : string := """ >
        <span style=""s1"">".
(** make_stpp_segments.py 42-44 *)
Definition tmpl_5 : string := "</span>
      </p>
      ".
(** make_stpp_segments.py 44-46 with stpp_creator.py 95-96: the end of the template *)
Definition tmpl_tail : string := "
    </div>

  </body>
</tt>".

(** make_stpp_segments.py 110 [ttml_template.render]: jinja2 puts the values as
    they are (no escaping by default) and keeps the white space around the loop
    marks; of the arguments only [paragraph] occurs in the template. *)
Definition par_text (p : par) : string :=
  tmpl_1 ++ pr_id p ++ tmpl_2 ++ pr_begin p ++ tmpl_3 ++ pr_end p ++ tmpl_4 ++ pr_text p ++ tmpl_5.
(** make_stpp_segments.py 110 [ttml_template.render]: the loop *)
Fixpoint pars_text (ps : list par) : string := match ps with [] => "" | p :: r => par_text p ++ pars_text r end.
(** make_stpp_segments.py 110-111: the document of a segment *)
Definition ttml_doc (ps : list par) : string := tmpl_head ++ pars_text ps ++ tmpl_tail.

(** make_stpp_segments.py 91-119: the loop over [k] segments from number
    [seg_nr] on; [rest] is the filter of create_media_segment with number,
    duration, time and document stored (LangModel), [more] the template after
    its first box.  The list is what gets written to the media files. *)
Fixpoint seg_loop (more : list Z) (rest : Z -> Z -> bytes -> Z -> result bytes) (lang : string)
    (segment_duration resolution : Z) (k : nat) (seg_nr time : Z) : result (list bytes) :=
  match k with
  | O => Ok []
  | S k =>
      let* pars := paragraphs lang segment_duration resolution time in
      let* output := create_media_segment more (rest seg_nr time (bstr (ttml_doc pars))) in
      let* others := seg_loop more rest lang segment_duration resolution k (seg_nr + 1) (time + segment_duration) in
      Ok (output :: others)
  end.
(** make_stpp_segments.py 72-119 [create_segments]: what gets written, the init
    segment first; the init file has been opened, and so emptied, before its
    content is made (82-85). *)
Definition create_segments (imore mmore : list Z) (irest : Z -> result bytes)
    (rest : Z -> Z -> bytes -> Z -> result bytes) (lang : string)
    (number_of_segments segment_duration resolution : Z) : result (list bytes) :=
  let* initseg := create_init_segment imore irest in
  let* media := seg_loop mmore rest lang segment_duration resolution (Z.to_nat number_of_segments) 1 0 in
  Ok (initseg :: media).
