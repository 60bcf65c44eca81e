{
 "C01": ["proved", "Exact availability window for every wellformed configuration without end limits; with C02/C05/C06/C07 for the limited ones."],
 "C02": ["proved", "Times at which a segment is served form an interval, and the answer is the same throughout."],
 "C03": ["proved", ""],
 "C04": ["partial", "Number addressing and sessions without a last-number limit; with such a limit the claim fails, because the limit is not shifted with the start number (C06_start_number_refuted)."],
 "C05": ["partial", "Times are exact for durations 1..1000 s (C05_start_stop_times). The served numbers are exact for non-negative start numbers and non-empty sessions (_partial theorems); snr_-1 and empty sessions break the claim (_refuted theorems)."],
 "C06": ["partial", "Exact for start number 0 (_partial theorems). The clause on other start numbers is false of the code (C06_start_number_refuted)."],
 "C07": ["proved", ""],
 "C08": ["proved", ""],
 "C09": ["proved", ""],
 "C10": ["proved", "Decode times read from the served bytes; all well-formed files, any two consecutive served numbers."],
 "C11": ["proved", ""],
 "C12": ["partial", "C12_widening is unconditional on well-formed files. Pointers are right for single track fragments whose run and auxiliary offsets follow tfdt (_partial theorems); otherwise wrong (three _refuted theorems)."],
 "C13": ["partial", "For files with the published payload layouts; mere tiling of sizes is not enough (two _refuted theorems). C13_unique: the boxes are determined by the bytes."],
 "C14": ["proved", ""],
 "C15": ["proved", ""],
 "C16": ["proved", "Session bounds and the 32-bit bound on start time * timescale; the bytes written are covered by the tfdt theorems."],
 "C17": ["proved", ""],
 "C18": ["partial", "The announced end is the first far-enough cumulative end and never decreases. The duration attribute may be dropped on the last update, so the last clause is false (C18_duration_dropped_refuted)."],
 "C19": ["proved", ""],
 "C20": ["partial", "The claim is false of the code: media is served past the announced end (C20_modulo_end_refuted) and no segment ever carries lmsg (C20_lmsg_never). What holds, nothing after AET+60, is C20_modulo_session_partial."],
 "C21": ["proved", "Start numbers >= 0 as stated; the option snr_-1 (number 1) breaks the agreement (C21_snr_default_refuted)."],
 "C22": ["partial", "Exact for manifests without a loss schedule (C22_type_partial); permanence for every URL without relative times, with or without loss schedule (C22_permanent). In a down interval of a loss schedule the type lags behind (C22_loss_refuted), and a minimumUpdatePeriod in the VoD manifest survives (C22_source_mup_refuted)."],
 "C23": ["partial", "Proved for an availability start time at the epoch (C23_tiling_partial). With a start option the claim is false: all periods are announced in the future (C23_start_time_refuted)."],
 "C24": ["partial", "Proved for start number 0 and time offsets that are whole numbers of segments (C24_aligned_partial, C24_containing_partial; the wall-clock time of the announced segment is late by the time offset). With a start number the announced numbers ignore it and the claim is false (C24_start_number_refuted), also with other time offsets (C24_time_offset_refuted)."],
 "C25": ["proved", "Selection and acceptance for early termination, callback and xlink counts."],
 "C26": ["partial", "For every contiguous table filling the loop and windows touching no run of the table in two turns of the loop; C26_one_turn gives such windows. Windows across the loop boundary are wrong for single-run content (C26_wrap_refuted) and for windows longer than the loop (C26_long_window_refuted); further refutations for boundaries inside a run, no complete segment, use_closest, zero durations."],
 "C27": ["partial", "C27_manifest_partial reads the segments off the generated tree and requests them by URL. Clean windows (see C26), start number 0, no time offset. False in general: C27_wrap_refuted, C27_start_number_refuted, C27_timeoffset_refuted, C27_stopped_refuted."],
 "C28": ["partial", "For clean windows (see C26); outside them lists are wrong already (C26_wrap_refuted)."],
 "C29": ["proved", ""],
 "C30": ["proved", "For all content the analysis accepts. roundtrip: the table of a set, read by the timeline generator, expands to exactly the (number, start, duration) list of its first representation when that is contiguous, so no value is truncated. refused: a run start whose number, start time or duration exceeds its field makes the analysis fail. An example shows that a gap is lost when contiguity is dropped."],
 "C31": ["proved", "Durations below one day round-trip and denote their value; refuted parts: texts of one day or more are rejected by the code's own parser, and fractional seconds read as 0."],
 "C32": ["proved", "Timestamps equal the proleptic Gregorian calendar text of the instant, hence are injective."],
 "C33": ["proved", "Shift exact for every document (C33_documents: every byte string is one); C33_cuts and C33_passes give the exact result of the whole adjustment for any document (times, visible lines, segment numbers, each text replaced by the value for the delivered segment); zero and double shifts. Refuted variants: from 100 hours on a second shift is ignored, non-canonical times change under a zero shift."],
 "C34": ["partial", "Delta, ids and silence for all durations; C34_delivered carries the schedule to the bytes of the served segment (boxes only in video, each one a box of the schedule, none missing when a warning instant falls in the segment). The announcement clause is proved for segment durations 1-6, 8, 10, 12 s (any n) and all divisors of 60 s (one ad per minute); it is false in general (7 s; 15 s with three ads). Documented 30/50 s positions refuted."],
 "C35": ["partial", "Round trip through the reader for ASCII texts without NUL (C35_round_trip_partial); false for NUL inside a text, and for non-ASCII text (declared size too small)."],
 "C36": ["partial", "One fragment with one run; several runs or fragments break the claim (_refuted theorems)."],
 "C37": ["proved", "For all box trees in which the headers are long enough to hold their duration; the result is determined uniquely."],
 "C38": ["proved", "For all pairs of init segments with one of each piece; missing pieces raise. Refuted: the joint segment keeps VoD durations, and only the last track of a file with several is kept."],
 "C39": ["partial", "For all pairs of single-run fragments whose movie fragments hold only header and track fragment. False outside: two runs, extra boxes in the movie fragment, sample auxiliary offsets, missing styp."],
 "C40": ["proved", "partition divides any sample list for any positive duration into non-empty chunks, in order, each but the last reaching its nominal boundary, with a chunk starting at the first sample at or after every boundary (and, for samples no longer than the chunk duration, exactly the samples between the boundaries). For duration 0 (a chunk duration below one tick) the writer raises IndexError (C40_zero)."],
 "C41": ["partial", "Proved for segments with one movie fragment of one track (boxes around it are other leaves), non-negative composition offsets below 2^31, fewer than 134 million samples, file below 4 GiB, decode times below 2^64: the chunks exist and each of them is a segment that says sequence number, track, data, times, durations and offsets of its part. Refuted for negative composition offsets (version 1 runs): the chunks show them as unsigned."],
 "C42": ["partial", "Refuted both ways: per-sample flags are a text, always true, so non-sync samples become sync samples; default flags 0 become non-sync. What the chunks say is characterised exactly (C42_flags_partial), and the information survives if all samples are sync samples and own flags or non-zero default flags are present."],
 "C43": ["partial", "Proved for timeoffset 0, or no time offset and availability start time 0: chunk i is sent at production time minus 0.1 s or, if the process gets there later, then, for all schedules of a clock that does not go back. Refuted for another availability start time: the media time is used as wall-clock time. Also proved for simulate_continuous_production of chunker.py (C43_simulate)."],
 "C44": ["partial", "Proved for fields of at most 33 bits (written_partial, round_trip_partial). Missing: wider fields; wide_refuted shows a 42 bit field raises IndexError because the mask table has 34 entries. C44_read, C44_golomb: reader and exp-Golomb for all buffers and positions. C44_golomb_endless: reading a code where no bit is set does not end."],
 "C45": ["partial", "Proved for every payload and every well formed single range (digits with leading zeros, any unit text) except suffix ranges longer than the payload, through the whole application; '-' alone gives the full payload. Refuted for suffixes longer than the payload (wrong bytes and negative positions), malformed ranges (ValueError escapes, no reply) and several ranges (206 with Content-Range None)."],
 "C46": ["proved", "For all histories of requests of the process, starting from the empty default dictionary of start_reply; the random session id is an input. No other state of the process is changed by a request (checked by reading)."],
 "C47": ["proved", "Redirect target, no second redirect at any later time, service equal to the unlimited service during the session, no success status outside it, and the same media with and without the session parts. Times are request times: chunks of a chunked reply may be sent after the end of the session when the request came before it."],
 "C48": ["partial", "All clauses proved, last-wins for options that assign their value; options that only switch a flag on do not follow last-wins (C48_flag_last_wins_refuted)."],
 "C49": ["proved", "Up/down pattern within the minute; the wrap over the minute is a finding (C49_minute_wrap_refuted)."],
 "C50": ["partial", "Frozen manifests equal the one of the last up second apart from the event stream element (C50_frozen_partial), and all manifests of one down interval are equal (C50_one_interval). Literal equality with the last up second is false (C50_equal_refuted)."],
 "C51": ["partial", "Proved for all caption lists and all segments with one moof and one mdat whose run gives duration and size per sample, a data offset and no first-sample flags, samples being NAL units after 4-byte lengths, each caption at most 31 words (what the scc reader makes, C51_words), total below 2^32: the output is again a fragment, around the run and the mdat nothing changes, every sample keeps time, duration, flags and composition time and its NAL units with the captions of its time before the first slice, the sizes table is that of the new samples, and the captions inserted are a permutation of those in the segment. False otherwise: default durations (no caption inserted), first-sample flags (dropped, then an error or misplaced data), default sizes, and two fragments (a caption inserted three times). Times are exact rationals, floats in the code. sidx is not updated by the code."],
 "C52": ["proved", "mdhd writer of stpp_creator / boxes: three letters a-z are packed in 15 bits and read back; what any other text gives is stated too; stpp_creator's patched init. Finding: the TTML templates are str, so create_init_segment and create_media_segment always raise TypeError in Python 3 (C52_creators_fail)."],
 "C53": ["partial", "Terminates on all byte strings in which no visited box declares size 0, and on all well-formed segments; with size 0 the loops never end (_refuted theorems), so the unrestricted claim is false of the code."],
 "C54": ["partial", "roundtrip_partial: after any accepted analysis, the written configuration is read back with the same loop, duration, buffer depth and media data, and each representation is found under its content type, for video and audio sets, ids without comma or outer white space and not shared with another set, and a nominal duration of at least one second. Refuted outside that: an id with a comma is split, sets of type subtitles are not written, a shared id is found as video, content of sub-second segments gives a file that is refused. The text form of the ini file (configparser) is not modelled."],
 "C55": ["partial", "Same window and position as media. The error path raises instead of replying, and a time offset shifts thumbnails, so those clauses are false (_refuted theorems)."],
 "C56": ["partial", "Single period: zero ato, no stop time, no pinned last segments (C56_single_period_partial; with ato and stop time see C69_media_partial); periods_n: additionally epoch start, start number 0, no time offset, period a multiple of the segment duration (C56_multi_period_partial). An announced start number of -1 is read as 1, so the claim fails there (C56_minus_one_refuted); with periods_n and a time offset the last announced segments are refused (C56_time_offset_refuted). C56_manifest_partial reads the number and start off the generated tree."],
 "C57": ["partial", "Same timing for number addressing; time addressing of muxed segments is broken (C57_mux_time_addressing_refuted)."],
 "C58": ["partial", "grid: all representations of accepted content have consecutive numbers from the same first number and ends within 0.1 s of the grid. loop_partial: the looped segments of the first representation of each set last within 0.1 s of the loop duration. duration_partial: the same for the noted total duration when the set is as long as the loop. Refuted otherwise: sets of different length are accepted (total far off the loop), and a further representation shorter than the loop is accepted."],
 "C59": ["partial", "Exact text of the xlink manifest (which children become links, which stay, with or without ads) and of the reply to a link request, for manifests whose Period ids come first and are not mentioned earlier in the document and which have one BaseURL without attributes. Refuted outside of that: an id found earlier in the text (p4 in mp4) damages another period, periods that stay get an AssetIdentifier when ads are inserted, a BaseURL with attributes gives IndexError, two BaseURLs give a broken href, periods_0 gives ZeroDivisionError."],
 "C60": ["proved", "For all requests, histories and limits: statuses are 200, 206, 302, 404, 410; error statuses have type text/plain and one of the server's texts as body; 200/206 bodies are contiguous parts of what the provider delivered or its chunks; delivered content gets 200 or 206. An exception in the range parser leaves no reply (C45)."],
 "C61": ["proved", "Refuted for version 1 media headers: the time scale is read from the wrong place."],
 "C62": ["partial", "C62_tree_partial: every source with one Period, every addressing mode and session (loss schedules included), all root attributes; C62_timeline_partial: what the SegmentTimelines list. Missing: negative time shift buffers; for several periods, sources with other elements before the Period, where the claim is false (C62_front_refuted)."],
 "C63": ["proved", "BaseURL text, its splitting by the server and the resulting configuration, for sources without (C63_base_url) and with (C63_source_base) a BaseURL of their own; for sessions without baseurl and relative options where the source has none (those are C64, C65)."],
 "C64": ["partial", "False: C64_base_urls_refuted. The baseurl parts are blanked, not removed, and the option is put after the content name, so every BaseURL leads to an unknown content name."],
 "C65": ["partial", "Location text and reload proved (C65_location, C65_reload) for options that do not read the clock otherwise. False for media requested from the first manifest, which has no BaseURL (C65_media_refuted); one relative option alone raises (C65_one_sided_refuted)."],
 "C66": ["proved", "For all accepted content, through the table bytes and the configuration file model, and any server configuration the result is loaded into. The conclusion is the hypothesis (gen_ok, on_grid) of the timeline theorems C26 to C28."],
 "C67": ["proved", "Whole bodies (no Range header, not chunked, no subtitles). Stored files are well-formed segments; a 404 also covers errors raised while filtering. The joint segment is stated for segments of the shape of C39."],
 "C68": ["proved", "C68_window: reply status for every configuration (given the stored file at the position of C67); C68_default_url: the same for a URL without options with the window in closed form. What the body is follows from C67_single."],
 "C69": ["partial", "C69_media_partial, C69_offset_partial and C69_init_partial are for sessions (record live_session) with one Period or several aligned ones with availability start 0 and start number 0, number templates, any finite availability offset written exactly in microseconds, open or ended by a stop time with a start number of at least 0; no multiple base URLs, time offset, chunked mode, inserted ads or sidx; source manifests whose Period follows only ProgramInformation and without BaseURL, a media template that fills in to id/number.m4s, a nominal duration equal to the stored one, and video or audio. C69_offset_refuted: with a template timescale other than 1 the presentationTimeOffset of a further Period is in seconds. Not covered: segment timelines, availability offset INF, time offset, source BaseURL."],
 "C70": ["proved", "Every site, URL, time and source tree with one Period, whatever precedes it (then possibly only the first period of the schedule is listed, C62_front_refuted)."],
 "C71": ["partial", "C71_announced: every event box sent (stored segment without events, not chunked) is a splice, then announced in every video set, or a loss event, announced if the manifest is of the same second and segtimelineloss_1 was given. C71_sent: due splices and loss events are in the segment (stored segment with styp). Refuted beyond that: no segtimelineloss, manifest of the second before, no contentType, scte35_9. Missing: baseurl_u0_dY, several baseurl options, chunked mode."],
 "C72": ["partial", "C72_listed_partial: end to end over HTTP for one Period or several, by time (segtimeline_1) or number (segtimelinenr_1), sources whose media template is $RepresentationID$/$Number$.m4s without presentationTimeOffset. Missing, because refuted elsewhere: start numbers and time offsets (C27_start_number_refuted, C27_timeoffset_refuted), stop times (C27_stopped_refuted), windows that touch a run of the table twice (C26, C27_wrap_refuted). Also missing: chunked delivery, inserted sidx, subtitles, infinite availability offset, requests for the further segment duration that the server grants after the buffer."],
 "C73": ["partial", "C73_inside_partial: each listed segment is complete and ends in its Period, so a segment in two lists ends exactly at the boundary. C73_complete_partial: each complete segment that ends in the Period and the buffer is listed (no early termination of periods). C73_twice_refuted: the segment that ends at the boundary is in both lists. Conditions as in C72."],
 "C74": ["partial", "Proved for every media URL without a moving option, for any two clocks, histories and session ids, when neither moment is the last second before a simulated up/down server goes down. Refuted in that second (C74_going_down_refuted): the same segment then has an additional event box."],
 "C75": ["partial", "C75_grid and C75_joint: each reply of a session with any options lies on the grid to 0.1 s, consecutive replies join. C75_in_step_partial: same number of two representations, ends within 0.2 s when both are measured from the start of their own content. Refuted beyond that: content whose representations start at different times (C75_start_refuted), and availability of both (C75_missing_refuted). Hypotheses: audio or video, one fragment with one run per segment, not chunked."],
 "C76": ["partial", "C76_analysis_partial: for all manifests and directories with templates of text, $RepresentationID$ and one $Number$, and directories in which nothing else begins like a segment, the analysis is the analysis of the named files (equal results, errors included). C76_served_partial: with the usual template the server's configuration and files are those (the premises of C75). Refuted beyond that: $Bandwidth$, absent startNumber, template in the Representation, copies of segments, leading zeros. Missing: file names with pattern characters."],
 "C77": ["partial", "Proved for all boxes that meet the condition proper, for all init segments and fragments, together with the media data offset, the position of the first initialization vector and success of the writer. False without the condition (C77_size_refuted), for HEVC (C77_hevc_refuted) and for the sample count of saiz (C77_saiz_refuted)."],
 "C78": ["proved", "Both for files below 4 GiB. The boxes given as bytes (esds, dac3, dec3) are assumed to be complete boxes. HEVC is never written (C77_hevc_refuted)."],
 "C79": ["partial", "Proved for every sample of the track for all tables, with composition offsets from 0 on. False for negative offsets (read without sign) and for sample numbers outside the track (given a time)."],
 "C80": ["partial", "Proved for all boxes named but sample-to-group; sample entries with width, height, channels and sample size below 32768 and rate below 65536, decoder configurations below 105 bytes, protected samples without subsamples, initialization vector sizes below 128, group descriptions up to the last and after the one following it. False for larger widths and rates, longer configurations, with subsamples, for sbgp and for the group entry just after the last. Missing: media headers (C52), runs of fragments (chunk claims)."],
 "C81": ["partial", "Proved for all times, environments and stored manifests with a Period, for sessions whose options are consistent in the sense of AnswerSpec.v (insertad only with links, callbacks only with a BaseURL, both relative session times or none, known clock methods), by number or with segment timelines. For timelines the hypotheses (listable) are tables of both tracks that describe the loop, a first segment that is over, templates of video or audio with a media attribute, and for several periods a time shift buffer after time 0. False for six combinations outside of it."],
 "C82": ["partial", "C82_find and C82_order hold for all trees and paths of types. C82_parse_partial and C82_tracks_partial are for files of non-empty containers, 32-bit sizes and ASCII types (well_made), whose boxes the classes can read (file_readable; classes that are not modelled are taken not to raise), with one moov and one mdia per track. The rest is false, see the refuted theorems."],
 "C83": ["partial", "C83_fragments, C83_offsets and C83_tail hold for all encoded tables. C83_durations_partial is for non-empty runs with offsets below 2^31 whose durations are in the run or given; C83_points_partial for three-byte numbers below 65536; C83_seek_partial for times at which no fragment but the first begins; C83_end_partial for two points or more. The rest is false, see the refuted theorems."],
 "C84": ["partial", "For stored segments whose media data is in the mdat box right after moof, found by the data offset of trun, with one tfdt and no styp or sidx inside moof; the chunks also need composition offsets in [0,2^31) and a chunk duration of a tick or more, and the flags in chunks are not kept (C42). Without that it is false, see the refuted theorems."],
 "C85": ["partial", "The documents are proved to be right in general for cue lengths that divide the segment duration, three-letter codes and times below 100 hours. False in general, see the refuted theorems; in particular the tool as it stands writes nothing, so that the theorems are about the documents it makes and not about files."],
 "C86": ["partial", "The fields are proved to be read as stored, for all layouts. The position of the data is right only for version 0, see the refuted theorem."],
 "C87": ["proved", "For all files of bytes; gaps are stated over the segments that the entries stand for, not over the entries. The printed text is modelled by its two numbers."],
 "C88": ["partial", "Proved for all layouts with as many qualities as servers and, for global entries, ids and offsets both long or both short; the run tables are read right in general. The other cases are refuted."],
 "C89": ["partial", "False of the code as it is. The partial theorem is about its loops with types looked for as bytes; [text] of the model is the only difference, and [written] is what the code has. Which tenc box a track has is an input."],
 "C90": ["proved", "For all boxes with version and flags. Nothing in the library makes the objects for the contents from uuid boxes; the theorems give them content and version as the box has them."],
 "C91": ["partial", "Proved for asking for all boxes, and for asking for one where the last part of the path is a type. Asking for one with a criterion as the last part is refuted: it fails though the box exists. The path is taken as already split at its dots, children as already parsed, attributes as the text str() makes of them; steps to the parent are left out."]
}
