# Design: machine-checked model of dash-live-source-simulator

Source: `/repo` (python).  The code is read as text; it is never run.  The model is
Coq 8.16.1, logical name `Verif`, in `rocq/theories`.

## 1. How the code is modelled

* One Gallina definition per Python function/method (or per clearly delimited branch of
  a long one), with a comment citing file and lines.  Model files hold only definitions.
* Python exceptions and error responses are values (`result`): `Err msg` stands for the raised exception
  (`ZeroDivisionError`, `struct.error`, `TypeError`, ...), and error *replies* are
  ordinary results, so "returns an error reply" and "raises" are different.
* Python `int` = `Z`; `//` and `%` = `Z.div`, `Z.modulo` (floor semantics, as Python), with
  division by zero an explicit error where the code can reach it.
* The clock.  `now` is a Python float; it is modelled by an exact rational `Q`.
  `int(now)` is truncation; the model uses `Qfloor`, equal to it for the non-negative times the
  server sees.  IEEE rounding of the sums and products of clock values is *not* modelled (simplification,
  repeated in the comments of the definitions concerned).
* Bytes are `list Z` with the predicate "all in [0,256)"; `struct.pack`/`unpack` are
  big-endian div/mod encoders with `struct.error` on overflow.
* Strings are Coq `string` (ASCII bytes).
* Loops: structural recursion where possible, otherwise fuel with a distinguished
  out-of-fuel error value, and a theorem says which fuel suffices.

## 2. File layout

For each area `X`: `XModel.v` (the code), `XSpec.v` (what is meant, written without
using the model's helpers), `XProofs*.v` (lemmas), `XTheory.v` (the main lemmas `Cnn_..._pf`
with, next to each, an `Example` of a concrete case meeting its hypotheses) and `XProps.v`
(only the theorems listed in MANIFEST.json, each closed by `exact`, with `Print Assumptions`).
`XProps.v`, `_CoqProject` and MANIFEST.json are written by `tools/gen_project.py` from the
`XTheory.v` files and `tools/notes.json`.

## 3. Properties: what is modelled, how proved

* **C01** Media segment availability window is exact: get_media/process_media_segment decision part over Q time; spec = explicit window; iff proved by case analysis + linear arithmetic.
* **C02** Availability of a segment never flaps: consequence of C01-style characterisation with all limits; convexity in `now`.
* **C03** Infinite availability time offset disables timing checks only: same model, infinite offset branch.
* **C04** startNumber only relabels segments: two runs of the same function compared; rewriting of differences.
* **C05** start/stop sessions serve exactly the numbered segments of the interval: Config.process_start_time + availability; quantize lemmas, then iff.
* **C06** Duration-limited sessions: nothing after the last segment, lmsg exactly on it: same with dur lists. Expected to be false with snr (last number ignores the start number): guarded theorem + refutation.
* **C07** No media after availabilityEndTime plus 60 s: branch analysis of get_media / process_thumbnail.
* **C08** Init segments are available exactly from AST minus the init offset: get_init.
* **C09** Live-to-VoD loop mapping is a bijection per loop and always in range: div/mod lemmas on the loop mapping; bijection stated with explicit inverse.
* **C10** The media timeline is continuous across loop wraps: abstract VoD timeline as a function of file number; telescoping.
* **C11** Media sequence number equals the requested segment number: byte-level filter model; parse-back of the mfhd box.
* **C12** Widening the decode time keeps all byte pointers valid: byte-level filter; the address designated by a pointer is computed by an independent box walker.
* **C13** Rewritten segments are well-formed box sequences: independent recursive well-formedness predicate on byte strings, preservation theorem.
* **C14** Filtering changes only the documented fields: box-tree level relation between input and output.
* **C15** lmsg brand handling is exact and idempotent: list-of-brands spec.
* **C16** tfdt_32 sessions keep decode times in 32 bits: update_for_tfdt32 + availability.
* **C17** Continuously updated sessions always have one available segment: update_for_cont_update + availability.
* **C18** Announced end time follows the duration list in order: induction over the duration list.
* **C19** modulo_x follows the documented table: ModuloPeriod with exact arithmetic; doc table transcribed as the spec.
* **C20** modulo_x sessions end where the MPD says they end: expected false (last number counted from the epoch); refutation with witness.
* **C21** timeoffset: manifest numbering and media timing agree: adjusted_start_number/adjusted_pto vs process_media_segment; guard on start number.
* **C22** Manifest turns static exactly after the stop time: generate_dynamic_mpd attribute level.
* **C23** Multi-period manifests tile the time-shift window: generate_period_data; list induction.
* **C24** Multi-period start numbers address the right media: generate_period_data + media mapping; refuted for AST<>0.
* **C25** Period options reject non-divisors and select every k-th period: option checks and per-period predicate.
* **C26** SegmentTimeline lists exactly the complete segments of the window: segtimeline run-length algorithm against the expanded infinite loop timeline; refuted where the repeat bookkeeping is wrong, proved for the main cases.
* **C27** Every segment advertised in a SegmentTimeline is served: C26 + C01.
* **C28** Successive SegmentTimelines are consistent: C26 for two windows.
* **C29** Time-addressed and number-addressed requests name the same segment: round(time/dur) with exact rationals.
* **C30** Timing-table files round-trip: RLE writer as a fold, reader as 20-byte record decoding.
* **C31** ISO durations round-trip: string-level model with decimal printing lemmas.
* **C32** UTC timestamps are calendar-correct: days-to-civil conversion; independent day-count spec.
* **C33** Subtitle times shift by exactly the loop offset: regex re-implemented as a matcher on lists of characters.
* **C34** SCTE-35 splice messages: once per ad, ahead of time: create_scte35box schedule; minute-periodic case analysis done symbolically.
* **C35** emsg boxes are self-consistent and parse back: emsg byte layout and mp4.emsg_box parser.
* **C36** Generated sidx boxes describe the segment: create_sidx and finalize.
* **C37** Live init segments differ only in zeroed durations: InitLiveFilter on bytes.
* **C38** Multiplexed init segments contain both tracks: MultiplexInits on bytes.
* **C39** Multiplexed media segments point each track to its own samples: MultiplexMediaSegments on bytes.
* **C40** Chunking is a lossless partition at the right boundaries: partition generator as list recursion.
* **C41** Each chunk is a self-contained fragment with the right timing and data: chunk/decode_fragment/create_moof/trun parser on bytes.
* **C42** Chunking preserves sync-sample information: expected false (flags string is always truthy): refutation.
* **C43** Chunks are never sent ahead of (wall-clock) production: pacing loop over an arbitrary clock (list of readings).
* **C44** Bit writer and bit reader are inverse: bit lists as spec; add_bits/get_bits as Z arithmetic.
* **C45** Byte-range replies contain exactly the requested bytes: handle_byte_range on strings; refuted for long suffix and multi-range.
* **C46** HTTP replies do not depend on earlier requests: start_reply with the shared mutable default argument as state.
* **C47** Session limits: one redirect, then bounded service: application dispatch.
* **C48** URL options: order irrelevant, last wins, stop at content name: process_url as fold over parts; permutation theorem.
* **C49** BaseURL up/down simulation follows the announced schedule: get_media baseurl branch.
* **C50** Loss signalling freezes the manifest during down time: get_mpd time freeze.
* **C51** Closed-caption insertion keeps segment structure consistent: cc insertion at sample level.
* **C52** Language codes round-trip: packing arithmetic.
* **C53** Box filters terminate: fuelled filter; termination for positive sizes, refuted for size 0.
* **C54** Content configuration files round-trip: key/value text file model; ConfigParser semantics restricted to what the writer emits.
* **C55** Thumbnails follow the availability rules of media segments: process_thumbnail; error_response arity.
* **C56** Manifest window and media window agree for number addressing: manifest attributes + C01.
* **C57** Multiplexed representations are timed like single ones: muxed branch of process_media_segment.
* **C58** The analyzer accepts content only if it can loop without audible drift: checkAndUpdateMediaData as fold.
* **C59** xlink replacement touches exactly the selected periods: string surgery on the manifest text.
* **C60** Errors never leak partial media: application dispatch.
* **C61** Reading an init segment: InitFilter on box trees (track id, handler, time scale, size).
* **C62** Live manifest follows the configuration: tree produced by mpdprocessor.py (attributes, periods, templates).
* **C63** Media URLs built from the manifest reach the session that produced it: BaseURL text, URL split, configuration.
* **C64** Several BaseURLs lead to the same media: refuted.
* **C65** Relative start/stop and Location: one reload pins the session; refuted for media before the reload.
* **C66** Analyzed content drives the timeline generator: table bytes and ini keys from the analyzer into the server (`C66_server`: for the configuration as the server reads it).
* **C67** From the URL to the bytes: composition of URL parsing, window, loop mapping, filter, multiplexing and HTTP layer.
* **C68** No run-time errors: the filter succeeds on every well-formed segment with room for the changes, so status 200 exactly in the window.
* **C69** The manifest, a player and the reply together: what the player computes from the tree is what the server answers (URL, window with availability offset and end, segment, decode times, presentation time offset, init segment), for one Period or several.
* **C70** Descriptors of every AdaptationSet of every Period (SCTE-35, loss events, period continuity with the id of the Period before), and no others.
* **C71** Events in the media against their announcement in the manifest: every event sent is a splice announced in the video sets or a loss event announced in the manifest of the same second; refuted without segtimelineloss, a second earlier, without contentType and for scte35_9.
* **C72** The manifest with a SegmentTimeline, a player and the reply together: every listed segment, addressed as the template says, by time or by number, in one Period or several, is served from the fetch of the manifest until its end leaves the time shift buffer, and it is the stored segment of the table at the listed time.
* **C73** The lists of consecutive Periods: every listed segment ends in its Period, every complete segment that ends in the Period and in the time shift buffer is listed; refuted: none is listed twice.
* **C74** Two replies to one media URL are the same, at any two moments and after any two histories, when the session has no option that moves with the clock; refuted in the last second before a simulated up/down server goes down.
* **C75** Analyzed content is served in step: analyzer, configuration file, server and media filter in one statement, for any two representations, any number and any two moments; refuted for content whose representations start at different times or have different numbers of files.
* **C76** The analyzer finds the files that the VoD manifest names: text replacement in templates against a parsed template, pattern search in directory listings against names, then equality with the analysis of the files; refuted for $Bandwidth$, an absent startNumber, a SegmentTemplate in the Representation, copies of segments and leading zeros.
* **C77** Boxes that are written are complete boxes: a byte-level definition of complete boxes with the ISO list of parent boxes, by induction over all box classes of boxes.py; what the chunker writes is the same; refuted for HEVC (never written), handler types, key ids, mixed subsamples, other sizes of initialization vectors, sidx of version 2 and the sample count in saiz.
* **C78** Init segments that boxes.py writes are what the server expects: for every codec the written file is put as a tree of boxes (BoxSpec), and the theorems about the init filters (C37, C61) give what is read; the live version is the file written with duration 0.
* **C79** Sample tables are looked up as the format says: the tables as ISO boxes at any place of a file, written from any division into runs; the searches find the run, chunk and byte position of every sample. Refuted for negative composition offsets and for samples that do not exist.
* **C80** Boxes are read back with the values they were written with: the writer (BoxesModel) against the readers of mp4.py, box by box, at any place of a file. Refuted for large pictures, sample rates of 65536 Hz or more, long AAC configurations, sample-to-group boxes and subsample encryption.
* **C81** A manifest request whose options go together is answered: `get_mpd` never fails for a session that is `consistent` (AnswerSpec.v lists what that means, option by option) and a stored manifest with a Period; with segment timelines, if they are `listable` at every time a manifest is made for. Refuted for six combinations that the checks let pass.
* **C82** The parser finds the boxes of a file: the tree is that of NavSpec.v for files of non-empty containers, 32-bit sizes and ASCII types whose boxes their classes can read; `find` and `find_all` give exactly the boxes that are reached by the path, in file order; the three track functions give track and time scale. Refuted for eight kinds of files.
* **C83** Runs and random access tables say when media is shown: total duration and exact presentation range of every non-empty run with offsets below 2^31; entries, fragments, offsets, seeking and end time of every encoded tfra box, the size in mfro. Refuted for empty runs, runs without a known duration, unsigned offsets, three-byte numbers, fragment 0, seeks to the start of a fragment, empty tables and tables of one point.
* **C84** A player gets the stored samples: from the URL to the samples that the reply says (data, times, durations, flags, offsets), whole (C84_samples_partial) or in chunks (C84_chunks_partial), and gapless play of the loop for plain URLs (C84_default_url_partial). For stored segments with the media data in the mdat box right after moof; refuted for a sidx box in between, for base data offsets and for chunks of less than a tick.
* **C85** Generated subtitles tell the time: cues of a segment tile it from its start (C85_cues_partial), over all segments exactly one cue is on if the cue length divides the segment duration (C85_cover_partial), and the three text passes of the server give exactly the moved document with UTC times (C85_live_partial, for the whole template text, below 100 hours). Refuted: cue lengths that do not divide, 100 hours, the language, and that anything gets written under Python 3.
* **C86** Protection headers, HEVC records and adjustments are read as stored: for every layout of pssh, hvcC and tfma boxes the readers give back exactly the values that were laid out (C86_pssh_partial, C86_hevc_partial, C86_adjustments_partial); the position kept for the data of a pssh box is right for version 0 (C86_data_position_partial). Refuted: that position for boxes with key ids.
* **C87** The table checker names exactly the gaps and overlaps between the segments a table stands for (C87_messages, C87_silent), says nothing about the analyzer's tables of contiguous content (C87_analyzed), and stops with an exception at a cut-off entry (C87_cut_off).
* **C88** Bootstrap boxes and their tables are read as stored: run tables of segments and fragments (C88_segment_runs_partial, C88_fragment_runs_partial), the bootstrap box with all tables in it if there are as many qualities as servers (C88_bootstrap_partial), random access boxes without global entries or with ids and offsets both long or both short (C88_random_access_partial). Refuted: the other cases.
* **C89** The encryption of a sample is that of its group, else of its track: proved for the loops if types were looked for as bytes (C89_map_partial), with the values of the track as its box has them if there is no pattern (C89_track_partial). The code looks for them as str, so that making the map fails for every fragment (C89_no_map), and nothing makes it, so that every sample is said to be in the clear (refuted).
* **C90** Boxes with extended types and fragment times are read as stored (C90_extended, C90_fragment_time, C90_next_times).
* **C91** Paths with attribute criteria find the boxes they describe: all of them (C91_all_partial), one of them if the last part is a type (C91_first_partial), but not if it is a criterion (C91_first_refuted).


## 4. Trusted base

* The Coq 8.16.1 kernel (and `coqchk`).
* No axioms of our own, no kernel check switched off, no `Admitted`.  Section 6 says what `Print Assumptions` reports.
* The hand translation from Python to Gallina: every definition cites the lines it
  mirrors and states what it leaves out.
* That the statements say what the English properties say.  The mutation log (`seeded/LOG.jsonl`) tests
  this: each line is a wrong version of a model definition and the theorems that no longer prove.  A proof that
  fails does not by itself show that the theorem became false, as the script may name what was edited; where it was
  found to be only that, the result is `script failed`.  The lines of rounds 8 and 9 have
  `instance_false`: whether the theorem's conclusion, computed on the case of its Example, is false of the edited
  model.  In the other rounds `examples_failed` names the Examples that became false.  Where neither is there, and no
  refutation failed, `killed` says only that the proof no longer goes through (about 120 lines).

### Modelled code

| file of `/repo/dashlivesim` | model | what is in it |
|---|---|---|
| dashlib/structops.py | BytesModel | pack and unpack of 16/32/64 bit fields |
| dashlib/configprocessor.py, moduloperiod.py | ConfigModel | URL options, start/stop/dur/modulo/cont/timeoffset/tfdt32, VodConfig values, adjusted start number and PTO |
| dashlib/dash_proxy.py | ProxyModel, SegmentModel, HttpModel | get_media, process_media_segment, process_thumbnail, get_init, up/down, content of replies |
| dashlib/mp4filter.py | Mp4Model | generic box filter, top level and recursive |
| dashlib/mediasegmentfilter.py | MediaModel | all process_ methods, sidx, emsg, TTML size, finalize |
| dashlib/initsegmentfilter.py | InitModel | InitFilter and InitLiveFilter |
| dashlib/segmentmuxer.py | MuxModel | MultiplexInits, MultiplexMediaSegments |
| dashlib/emsg.py, scte35.py | EmsgModel, EmsgReadModel | event boxes, splice schedule, emsg reader of mp4.py |
| dashlib/ttml_timing_offset.py | TtmlModel | the three text passes |
| dashlib/timeformatconversions.py | TimeModel | durations and timestamps |
| dashlib/mpd_proxy.py | PeriodModel, MpdModel, XlinkModel | period data, get_mpd, loss schedule, xlink periods and ads |
| dashlib/mpdprocessor.py | MpdModel | element tree of the live manifest |
| dashlib/segtimeline.py | TimelineModel | timing table reader, timeline generator, window |
| dashlib/bitwriter.py, bitreader.py | BitsModel | writer, reader, exp-Golomb |
| dashlib/chunker.py, mp4.py, boxes.py (parts) | ChunkModel | fragment decoding, partition, chunk encoding, pacing |
| dashlib/boxes.py | BoxesModel | all box classes and create functions (HVCCBox up to where it raises) |
| dashlib/mp4.py | TablesModel | stts, ctts, stss, stsz, stsc, stco and co64 boxes with their lookups |
| dashlib/mp4.py | ReadersModel | constructors and properties of mvhd, tkhd, hdlr, trex, mfhd, sample entries, avcC, esds, stsd, saiz, saio, sbgp, sgpd, senc, sidx, ftyp, styp, payl |
| dashlib/mp4.py | NavModel | box.find, find_all, parse_children, childpos, class lookup, mp4 with get_video_info, get_audio_info, get_timed_text_info; paths of plain types only, no attribute criteria, no stops, always recursive |
| dashlib/mp4.py | RunModel | trun_box.get_durations, tfra_box, mfro_box; seek times are whole numbers, properties are read at once |
| dashlib/mp4.py | HeadModel | pssh, hvcC and tfma boxes |
| dashlib/mp4.py | BootModel | abst, asrt, afrt and afra boxes; inner boxes taken to be no uuid boxes, fragment runs by their numbers |
| dashlib/mp4.py | GencModel | genc and tenc boxes; which tenc box belongs to a track is an input |
| dashlib/mp4.py | UuidModel | heads of uuid boxes, tfxd and tfrf contents |
| dashlib/mp4.py | CritModel | match_attribute, match_box, find with criteria |
| vodanalyzer/parse_dat_file.py | CheckModel | the loop and its messages; the optional print of entries is left out |
| cc_inserter/cc_inserter.py (parts) | CcModel | caption insertion in segments |
| dashlib/stpp_generator/stpp_creator.py, boxes.py (parts) | LangModel | media header and language code |
| dashlib/stpp_generator/make_stpp_segments.py | StppModel | time strings, paragraphs, template text, loop over segments; ASCII texts |
| vodanalyzer/dashanalyzer.py, VodConfig | VodModel | analysis, timing tables, configuration file values |
| vodanalyzer/mpdprocessor.py, dashanalyzer.py (finding files) | SourceModel | VoD manifest, templates, paths, directory search |
| mod_wsgi/mod_dashlivesim.py | HttpModel | the WSGI application |

Not modelled: logging; file and network I/O (contents of files are inputs); the XML library (parsed trees are
inputs, writing is modelled only for xlink manifests); configparser (key/value pairs); `random` (session id is an input); command line
front ends (`main` functions); the make-live functions of vodanalyzer/mpdprocessor.py, which nothing calls;
cc_inserter/mpdprocessor.py (a copy of the former); of mp4.py the words for
values of sdtp boxes, and in paths with criteria the steps to the parent.

## 5. Findings

Each is a theorem about the model with a concrete witness (the names are in MANIFEST.json), unless marked
"example" or "read".

Sessions and availability
* `C06_start_number_refuted`: with snr_s and dur, the last number ignores s; snr_10 with ten segments serves nothing.
* `C05_snr_default_refuted`, `C21_snr_default_refuted`: snr_-1 (number 1) is not honoured by the stop limit and the time offset.
* `C05_empty_session_refuted`: stop = start serves media without limit (stop number 0 counts as "none").
* `C05_long_segments_refuted`: the stop time is rounded up by adding 0.999 d, which is too little for d > 1000 s.
* `C18_duration_dropped_refuted`: the presentation duration vanishes from the manifest in the last update.
* `C20_modulo_end_refuted`: modulo sessions serve media past the announced end; no segment ever carries lmsg (`C20_lmsg_never`).
* `C48_flag_last_wins_refuted`: segtimeline_1/segtimeline_0 leaves the option on.
* `C49_minute_wrap_refuted`: baseurl_uX_dY is up in second 0 of each minute even if the pattern says down.
* `C55_thumbnail_error_reply_refuted`: refusing a thumbnail raises TypeError (error_response called with one argument).
* `C55_thumbnail_timeoffset_refuted`: thumbnails ignore the time offset.
* `C57_mux_time_addressing_refuted`: time addressing of multiplexed segments raises TypeError.

Manifests
* `C22_loss_refuted`, `C50_equal_refuted`: a frozen manifest differs from the last one before the outage (event stream; type lags behind the end).
* `C22_source_mup_refuted`: a minimumUpdatePeriod in the VoD manifest survives in the static manifest.
* `C23_start_time_refuted`: with start_ and periods_n all periods lie in the future (offset of AST applied twice).
* `C24_start_number_refuted`: periods_n ignores snr.
* `C56_minus_one_refuted`: an announced start number of -1 (timeoffset) is read as 1.
* `C56_time_offset_refuted`, `C24_time_offset_refuted`: periods_n ignores timeoffset_T in the start numbers; the last T seconds announced are refused, and if T is no multiple of the segment duration the announced segment does not start with the Period.
* `C64_base_urls_refuted`: with several baseurl options every BaseURL leads to an unknown content name.
* `C65_media_refuted`, `C65_one_sided_refuted`: relative times without BaseURL; one relative option alone raises TypeError.
* `C26_*_refuted`: segment timelines across the loop boundary, longer than the loop, starting inside a run, with no complete segment, use_closest, zero durations.
* `C27_*_refuted`: consequences for advertised segments; snr and timeoffset.
* `C27_stopped_refuted`: after the stop time the static SegmentTimeline manifest still lists the live window of the clock: segments past the stop (refused) and not the first ones (served); the window is limited to the stop only with timeoffset_0.
* `C62_front_refuted`: with periods_n and, say, a Location before the Period in the source, that element is copied instead of the Period (mpdprocessor.py line 200 uses the old position).
* `C69_offset_refuted`: with periods_n and a number template that has a timescale, presentationTimeOffset is the Period start in seconds, not in ticks, so media are presented too late.
* `C71_unannounced_loss_refuted`, `C71_late_refuted`: the event before an outage is sent in every session with baseurl_uX_dY, announced only with segtimelineloss_1 and only in manifests fetched in that very second.
* `C71_content_type_refuted`: splices are sent in video whose AdaptationSet has no contentType attribute, without announcement; `C71_unused_refuted`: scte35_9 is announced and nothing is ever sent.
* `C73_twice_refuted`: with periods_n and a SegmentTimeline, a segment that ends exactly where a Period begins is also the first one in the list of that Period, though nothing of it is presented there (a consequence of the search in segtimeline.py, which starts one segment early at a boundary inside a run).
* `C74_going_down_refuted`: with baseurl_uX_dY the same segment URL gives one more event box in the last second before the server goes down (mediasegmentfilter.py, segtimelineloss event): a cache in front of the server may keep either version.
* `C75_start_refuted`: the analyzer never compares the starts of representations (dashanalyzer.py compares ends relative to the own first start): audio that begins 100 s after video is accepted and is served 100 s late for ever.
* `C75_missing_refuted`: the analyzer takes the last number from the first representation of a set only (dashanalyzer.py:148-247, checkAndUpdateMediaData): a second representation with fewer files is accepted, and its last segments give 404 in every loop while those of the first are served.
* `C76_bandwidth_refuted`: the analyzer replaces `$bandwidth$` in templates, DASH writes `$Bandwidth$` (vodanalyzer/mpdprocessor.py:223, 231, and the same lines of cc_inserter/mpdprocessor.py): a manifest that uses it cannot be analyzed.
* `C76_start_number_refuted`: an absent startNumber (default 1) raises TypeError (mpdprocessor.py:166).
* `C76_level_refuted`: a SegmentTemplate in the Representation is not read (mpdprocessor.py:181-188).
* `C76_copy_refuted`: the pattern for segment names is not anchored at the end (dashanalyzer.py:131-136), so 2.m4s.bak beside 2.m4s is reported as a missing segment "between 2 and 2".
* `C76_zero_refuted`: 02.m4s closes the gap between 1.m4s and 3.m4s in the check, but is not found afterwards; the content is accepted with a loop that ends before it.
* `C77_hevc_refuted`: boxes.py:705 uses `bitwriter`, which is not imported: an init segment with HEVC is never written (NameError).
* `C77_size_refuted`: announced and written size differ for a handler type (boxes.py:404) or key id (1133) of another length, for initialization vectors that are not 8 bytes (1158, always written with 8), for samples with and without subsamples in one senc box (1160, 1173), for sidx versions above 1 (1195), and from 4 GiB on.
* `C77_saiz_refuted`: create_moof never adds samples to the saiz box (boxes.py:1765, 1787), so it says 0 samples, and 8 bytes of auxiliary data for each even if subsamples make them longer.
* `C79_negative_refuted`: mp4.py:1615 reads composition offsets without sign whatever the version of the ctts box, so -1024 comes out as 4294966272.
* `C79_outside_refuted`: sample number 0 is looked up with index -1 (mp4.py:1586), the last run, and a number after the last sample continues it; both get a time instead of an error.
* `C80_width_refuted`: mp4.py:833 reads width and height as signed 16-bit numbers; 40000 is read as -25536.
* `C80_rate_refuted`: a sample rate of 96000 does not fit into the 16.16 field that boxes.py writes and is read as 30464.
* `C80_decoder_refuted`: ESDSBox writes descriptor lengths as one byte; from 105 bytes of configuration on the length byte has its top bit set, which the reader (and the format) takes as "more length bytes follow".
* `C80_sample_groups_refuted`: SBGPBox does not write the grouping type, so that everything after it is read four bytes too late.
* `C80_vectors_refuted`: senc_box reads a table of 8-byte vectors and ignores the subsample flag; with subsamples all but the first are wrong.
* `C80_group_outside_refuted`: sgpd_box.entry and sbgp_box.group_entry test for `>` instead of `>=`: the entry after the last is read from the next box.
* `C82_ac3_refuted`: dac3_box and dec3_box call the module `bitreader` (mp4.py:48), which raises TypeError, so that no file with AC-3 audio can be parsed.
* `C81_ads_refuted`: insertad with xlink_0 passes the check (it tests for a negative number, mpd_proxy.py:31) and fails with ZeroDivisionError.
* `C81_callback_refuted`: mpdcallback with startrel and stoprel: the manifest has a Location and no BaseURL, and the callback address is unbound (UnboundLocalError, mpdprocessor.py 317-321).
* `C81_relative_refuted`: startrel without stoprel: the Location formats a stop time that is None (TypeError, mpdprocessor.py 186-189).
* `C81_video_only_refuted`: a segment timeline for content without audio fails with KeyError (mpdprocessor.py 311-315), even if no adaptation set is audio.
* `C81_first_segment_refuted`: with a segment timeline there is no manifest until the first segment is complete (TypeError).
* `C81_early_period_refuted`: with several periods and a segment timeline, a request while the time shift buffer reaches back beyond time 0 fails (TypeError): the period before time 0 gets a timeline, too (mpd_proxy.py 236-241).
* `C82_empty_last_refuted`, `C82_empty_refuted`: parse_children reads a child before it looks at the end (mp4.py 233-236), so that an empty container (an empty udta) at the end of the file gives struct.error, and elsewhere takes in the box after it.
* `C82_type_refuted`: a box type with a byte above 127 (the copyright sign of metadata in udta) gives UnicodeDecodeError (mp4.py:253).
* `C82_scheme_refuted`: schm_box overwrites its own type with the scheme (mp4.py 1021-1028), so that find does not find it.
* `C82_avc3_refuted`: avc3 sample entries are not containers (mp4.py 50-77), their avcC is not found.
* `C82_long_refuted`, `C82_to_end_refuted`: containers with a 64-bit size lose their boxes (childpos is 8 in any case); a last box of size 0, which extends to the end of the file, is dropped.
* `C82_no_audio_refuted`: get_audio_info and get_timed_text_info test the class `box` and not what they have found (mp4.py:342, 350): AttributeError for files without such a track.
* `C83_empty_run_refuted`: get_durations of an empty run with composition offsets raises IndexError (mp4.py:1334, 1339).
* `C83_no_default_refuted`, `C83_unsigned_refuted`: without a default duration the result is (0, 0, 0), which reads like an empty run (mp4.py 1315-1317); offsets of version 0 from 2^31 on are read as negative numbers (mp4.py:1328).
* `C83_narrow_refuted`: a three-byte number of a random access point is read with '>BH' and only its last two bytes are kept (mp4.py 1448-1453).
* `C83_fragment_zero_refuted`: fragment 0 gives the last fragment, as the index is -1 (mp4.py:1484).
* `C83_seek_refuted`, `C83_seek_empty_refuted`: a seek to the very time at which a fragment begins gives the fragment before it (bisect_left, mp4.py 1506-1508); an empty table raises IndexError.
* `C83_end_refuted`: with a single point end_time reads entry(-1) from the head of the box, so that it depends on the track number (mp4.py 1433-1435).
* `C84_between_refuted`: a sidx box between moof and mdat is taken out but the data offset in trun is not adjusted, so that the reply says other bytes (mediasegmentfilter.py 195-204 and 234, the size change counts only tfdt).
* `C84_base_offset_refuted`: a stored segment with a base data offset is refused for all media, though the check is meant for TTML (mediasegmentfilter.py 134-135).
* `C84_tick_refuted`: chunkdur_0.00001 is accepted in the URL, and every segment then gets 404 (IndexError in create_moof of the empty first chunk).
* `C85_overlap_refuted`: a resolution that does not divide the segment duration makes the last cue of a segment overlap the first of the next.
* `C85_hundred_hours_refuted`: from 100 hours on the subtitle documents are sent unchanged, as the patterns want two digits of hours.
* `C85_language_refuted`: the documents always say xml:lang="en"; the template has no place for the language that is passed to it.
* `C85_no_output_refuted`: the tool raises TypeError before anything is written (see C52_creators_fail).
* `C86_data_position_refuted`: `pssh_box.childpos` is 32 bytes into the box for every version, which with key ids (version 1) is within the list of key ids.
* `C88_qualities_refuted`: `abst_box` reads as many qualities as there are servers (line 2058 has the wrong count); with one quality and no server the quality becomes the DRM data.
* `C88_offsets_refuted`: `afra_box` reads the offsets of global entries in the width of the ids (lines 1944-1945), which gives wrong offsets or StopIteration when the widths differ.
* `C89_clear_refuted`, `C89_no_map`: `genc_box.sample_encrypted_info` always says (0, 0, ''): `_init_sample_map` has no caller, and `get_sibling('tfhd')` compares str with bytes, so that it would raise AttributeError.
* `C89_pattern_refuted`: `tenc_box.is_encrypted` takes three bytes, so that the pattern of a version 1 box (pattern encryption) is part of it: 6401 instead of 1 for the usual pattern.
* `C91_first_refuted`: with two tracks, find(b'trak.tkhd[track_id=2]') ends in an IndexError although find_all gives
  the box. The matching children are a filter object (mp4.py 202-203), which is true even if it gives nothing (207),
  so the first track already ends the search in matches[0] of an empty list (211-212).
* read: the splice goes after the styp box (mediasegmentfilter.py 108-127), so a stored segment without styp never carries one.
* `C59_*_refuted`: period id found earlier in the text (p4 inside mp4), AssetIdentifier on periods that stay, BaseURL with attributes, two BaseURLs, periods_0.
* read: an empty timeline with segtimelinenr gives startNumber "None".

Media bytes
* `C12_*_refuted`: two tracks, second fragment, run before tfdt: data offsets wrong after widening tfdt.
* `C13_odd_styp_refuted`, `C13_long_mfhd_refuted`: odd payload lengths lose bytes.
* `C35_non_ascii_refuted`, `C35_nul_refuted`: emsg size of non-ASCII text; NUL in text.
* `C36_two_runs_refuted`, `C36_two_fragments_refuted`: duration in the generated sidx.
* `C38_live_refuted`, `C38_all_tracks_refuted`: joint init keeps VoD durations; keeps one track per file.
* `C39_*_refuted`: two runs, extra boxes, auxiliary offsets, no styp.
* `C41_negative_offset_refuted`, `C42_sync_refuted`, `C42_non_sync_refuted`, `C43_start_refuted`, `C40_zero`: chunked mode: composition offsets, sync flags, pacing with AST, chunk duration below a tick.
* `C51_*_refuted`: caption insertion with default durations or sizes, first-sample flags, two fragments (inserted several times).
* `C53_*_refuted`: a box of size 0 makes the filters loop for ever.
* `C61_long_header_refuted`: version 1 mdhd: time scale read from the wrong place.
* `C31_*_refuted`, `C33_*_refuted`, `C34_*_refuted`, `C44_wide_refuted`, `C44_golomb_endless`: durations of a day or fractions; TTML times from 100 hours on; splice schedule for 7 s and 15 s segments and three ads a minute; fields wider than 33 bits; endless exp-Golomb.
* `C52_creators_fail`: stpp_creator templates are str, so both creators raise TypeError in Python 3.
* read: cc_inserter does not update sidx.

HTTP
* `C45_*_refuted`: suffix longer than the payload, malformed ranges (no reply at all), several ranges (Content-Range None).
* read: chunked replies may outlast the session limit.

Analyzer
* `C54_*_refuted`: ids with comma, subtitles sets, shared ids, sub-second segments.
* `C58_*_refuted`: sets of different length, a further representation shorter than the loop.
* example `C30_gap_case`: a gap between segments is lost in the timing table.

## 6. Theorem assumptions

`Print Assumptions` is under each theorem in the `*Props.v` files.  Every one of them reports

    Closed under the global context

so no theorem depends on an axiom.  (`vcheck` counts seven axioms in the loaded environment: they are fields of module
types in Coq's `ssr.ssrunder`, loaded with the standard library's tactics; no theorem uses them.)
