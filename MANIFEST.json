{"claims": [
 {"property": "C01", "status": "proved", "theorems": ["C01_media_window_exact"], "note": "Exact availability window for every wellformed configuration without end limits; with C02/C05/C06/C07 for the limited ones."},
 {"property": "C02", "status": "proved", "theorems": ["C02_served_times_convex", "C02_refused_for_good"], "note": "Times at which a segment is served form an interval, and the answer is the same throughout."},
 {"property": "C03", "status": "proved", "theorems": ["C03_ato_inf"], "note": ""},
 {"property": "C04", "status": "partial", "theorems": ["C04_start_number_relabels_partial"], "note": "Number addressing and sessions without a last-number limit; with such a limit the claim fails, because the limit is not shifted with the start number (C06_start_number_refuted)."},
 {"property": "C05", "status": "partial", "theorems": ["C05_start_stop_times", "C05_start_stop_segments_partial", "C05_start_stop_url_partial", "C05_snr_default_refuted", "C05_empty_session_refuted", "C05_long_segments_refuted"], "note": "Times are exact for durations 1..1000 s (C05_start_stop_times). The served numbers are exact for non-negative start numbers and non-empty sessions (_partial theorems); snr_-1 and empty sessions break the claim (_refuted theorems)."},
 {"property": "C06", "status": "partial", "theorems": ["C06_last_number_partial", "C06_last_segment_partial", "C06_duration_url_partial", "C06_start_number_refuted"], "note": "Exact for start number 0 (_partial theorems). The clause on other start numbers is false of the code (C06_start_number_refuted)."},
 {"property": "C07", "status": "proved", "theorems": ["C07_nothing_after_end", "C07_error_after_end"], "note": ""},
 {"property": "C08", "status": "proved", "theorems": ["C08_init_exact", "C08_init_permanent", "C08_init_real_time"], "note": ""},
 {"property": "C09", "status": "proved", "theorems": ["C09_source_segment", "C09_consecutive", "C09_bijection"], "note": ""},
 {"property": "C10", "status": "proved", "theorems": ["C10_continuous"], "note": "Decode times read from the served bytes; all well-formed files, any two consecutive served numbers."},
 {"property": "C11", "status": "proved", "theorems": ["C11_number", "C11_too_large"], "note": ""},
 {"property": "C12", "status": "partial", "theorems": ["C12_widening", "C12_data_offset_partial", "C12_saio_partial", "C12_two_tracks_refuted", "C12_second_fragment_refuted", "C12_trun_first_refuted"], "note": "C12_widening is unconditional on well-formed files. Pointers are right for single track fragments whose run and auxiliary offsets follow tfdt (_partial theorems); otherwise wrong (three _refuted theorems)."},
 {"property": "C13", "status": "partial", "theorems": ["C13_well_formed_partial", "C13_odd_styp_refuted", "C13_long_mfhd_refuted", "C13_unique"], "note": "For files with the published payload layouts; mere tiling of sizes is not enough (two _refuted theorems). C13_unique: the boxes are determined by the bytes."},
 {"property": "C14", "status": "proved", "theorems": ["C14_documented", "C14_copied"], "note": ""},
 {"property": "C15", "status": "proved", "theorems": ["C15_brands", "C15_idempotent"], "note": ""},
 {"property": "C16", "status": "proved", "theorems": ["C16_tfdt32_session", "C16_tfdt32_fits"], "note": "Session bounds and the 32-bit bound on start time * timescale; the bytes written are covered by the tfdt theorems."},
 {"property": "C17", "status": "proved", "theorems": ["C17_cont_one_segment"], "note": ""},
 {"property": "C18", "status": "partial", "theorems": ["C18_announced_end_partial", "C18_announced_end_monotone", "C18_duration_dropped_refuted"], "note": "The announced end is the first far-enough cumulative end and never decreases. The duration attribute may be dropped on the last update, so the last clause is false (C18_duration_dropped_refuted)."},
 {"property": "C19", "status": "proved", "theorems": ["C19_modulo_table", "C19_modulo_end_monotone"], "note": ""},
 {"property": "C20", "status": "partial", "theorems": ["C20_modulo_end_refuted", "C20_modulo_session_partial", "C20_lmsg_never"], "note": "The claim is false of the code: media is served past the announced end (C20_modulo_end_refuted) and no segment ever carries lmsg (C20_lmsg_never). What holds, nothing after AET+60, is C20_modulo_session_partial."},
 {"property": "C21", "status": "proved", "theorems": ["C21_timeoffset", "C21_snr_default_refuted"], "note": "Start numbers >= 0 as stated; the option snr_-1 (number 1) breaks the agreement (C21_snr_default_refuted)."},
 {"property": "C22", "status": "partial", "theorems": ["C22_type_partial", "C22_permanent", "C22_loss_refuted", "C22_source_mup_refuted"], "note": "Exact for manifests without a loss schedule (C22_type_partial); permanence for every URL without relative times, with or without loss schedule (C22_permanent). In a down interval of a loss schedule the type lags behind (C22_loss_refuted), and a minimumUpdatePeriod in the VoD manifest survives (C22_source_mup_refuted)."},
 {"property": "C23", "status": "partial", "theorems": ["C23_tiling_partial", "C23_start_time_refuted"], "note": "Proved for an availability start time at the epoch (C23_tiling_partial). With a start option the claim is false: all periods are announced in the future (C23_start_time_refuted)."},
 {"property": "C24", "status": "partial", "theorems": ["C24_aligned_partial", "C24_containing_partial", "C24_time_offset_refuted", "C24_start_number_refuted"], "note": "Proved for start number 0 and time offsets that are whole numbers of segments (C24_aligned_partial, C24_containing_partial; the wall-clock time of the announced segment is late by the time offset). With a start number the announced numbers ignore it and the claim is false (C24_start_number_refuted), also with other time offsets (C24_time_offset_refuted)."},
 {"property": "C25", "status": "proved", "theorems": ["C25_accepted", "C25_selected", "C25_time_independent", "C25_xlink_checks"], "note": "Selection and acceptance for early termination, callback and xlink counts."},
 {"property": "C26", "status": "partial", "theorems": ["C26_exact_partial", "C26_one_turn", "C26_first_playing", "C26_closest_partial", "C26_wrap_refuted", "C26_single_run_excess", "C26_long_window_refuted", "C26_boundary_refuted", "C26_no_segment_refuted", "C26_closest_refuted", "C26_zero_duration_refuted"], "note": "For every contiguous table filling the loop and windows touching no run of the table in two turns of the loop; C26_one_turn gives such windows. Windows across the loop boundary are wrong for single-run content (C26_wrap_refuted) and for windows longer than the loop (C26_long_window_refuted); further refutations for boundaries inside a run, no complete segment, use_closest, zero durations."},
 {"property": "C27", "status": "partial", "theorems": ["C27_manifest_partial", "C27_stopped_refuted", "C27_served_partial", "C27_wrap_refuted", "C27_start_number_refuted", "C27_timeoffset_refuted"], "note": "C27_manifest_partial reads the segments off the generated tree and requests them by URL. Clean windows (see C26), start number 0, no time offset. False in general: C27_wrap_refuted, C27_start_number_refuted, C27_timeoffset_refuted, C27_stopped_refuted."},
 {"property": "C28", "status": "partial", "theorems": ["C28_consistent_partial"], "note": "For clean windows (see C26); outside them lists are wrong already (C26_wrap_refuted)."},
 {"property": "C29", "status": "proved", "theorems": ["C29_time_addressing", "C29_number_addressing"], "note": ""},
 {"property": "C30", "status": "proved", "theorems": ["C30_roundtrip", "C30_refused"], "note": "For all content the analysis accepts. roundtrip: the table of a set, read by the timeline generator, expands to exactly the (number, start, duration) list of its first representation when that is contiguous, so no value is truncated. refused: a run start whose number, start time or duration exceeds its field makes the analysis fail. An example shows that a gap is lost when contiguity is dropped."},
 {"property": "C31", "status": "proved", "theorems": ["C31_round_trip", "C31_denotes", "C31_injective", "C31_day_refuted", "C31_day_rejected", "C31_fraction_refuted"], "note": "Durations below one day round-trip and denote their value; refuted parts: texts of one day or more are rejected by the code's own parser, and fractional seconds read as 0."},
 {"property": "C32", "status": "proved", "theorems": ["C32_calendar", "C32_injective"], "note": "Timestamps equal the proleptic Gregorian calendar text of the instant, hence are injective."},
 {"property": "C33", "status": "proved", "theorems": ["C33_documents", "C33_shift", "C33_zero", "C33_twice", "C33_hundred_hours_refuted", "C33_zero_refuted", "C33_cuts", "C33_passes"], "note": "Shift exact for every document (C33_documents: every byte string is one); C33_cuts and C33_passes give the exact result of the whole adjustment for any document (times, visible lines, segment numbers, each text replaced by the value for the delivered segment); zero and double shifts. Refuted variants: from 100 hours on a second shift is ignored, non-canonical times change under a zero shift."},
 {"property": "C34", "status": "partial", "theorems": ["C34_delivered", "C34_message", "C34_silent", "C34_off", "C34_announced_partial", "C34_announced_single_partial", "C34_ids", "C34_seven_seconds_refuted", "C34_fifteen_seconds_refuted", "C34_documented_three_refuted"], "note": "Delta, ids and silence for all durations; C34_delivered carries the schedule to the bytes of the served segment (boxes only in video, each one a box of the schedule, none missing when a warning instant falls in the segment). The announcement clause is proved for segment durations 1-6, 8, 10, 12 s (any n) and all divisors of 60 s (one ad per minute); it is false in general (7 s; 15 s with three ads). Documented 30/50 s positions refuted."},
 {"property": "C35", "status": "partial", "theorems": ["C35_round_trip_partial", "C35_range", "C35_out_of_range", "C35_non_ascii_refuted", "C35_nul_refuted"], "note": "Round trip through the reader for ASCII texts without NUL (C35_round_trip_partial); false for NUL inside a text, and for non-ASCII text (declared size too small)."},
 {"property": "C36", "status": "partial", "theorems": ["C36_sidx_partial", "C36_two_runs_refuted", "C36_two_fragments_refuted"], "note": "One fragment with one run; several runs or fragments break the claim (_refuted theorems)."},
 {"property": "C37", "status": "proved", "theorems": ["C37_live", "C37_determined", "C37_idempotent"], "note": "For all box trees in which the headers are long enough to hold their duration; the result is determined uniquely."},
 {"property": "C38", "status": "proved", "theorems": ["C38_joint", "C38_missing", "C38_live_refuted", "C38_all_tracks_refuted"], "note": "For all pairs of init segments with one of each piece; missing pieces raise. Refuted: the joint segment keeps VoD durations, and only the last track of a file with several is kept."},
 {"property": "C39", "status": "partial", "theorems": ["C39_joint_partial", "C39_two_runs_refuted", "C39_extra_box_refuted", "C39_aux_info_refuted", "C39_no_styp_refuted"], "note": "For all pairs of single-run fragments whose movie fragments hold only header and track fragment. False outside: two runs, extra boxes in the movie fragment, sample auxiliary offsets, missing styp."},
 {"property": "C40", "status": "proved", "theorems": ["C40_chunking", "C40_zero"], "note": "partition divides any sample list for any positive duration into non-empty chunks, in order, each but the last reaching its nominal boundary, with a chunk starting at the first sample at or after every boundary (and, for samples no longer than the chunk duration, exactly the samples between the boundaries). For duration 0 (a chunk duration below one tick) the writer raises IndexError (C40_zero)."},
 {"property": "C41", "status": "partial", "theorems": ["C41_chunks_partial", "C41_negative_offset_refuted"], "note": "Proved for segments with one movie fragment of one track (boxes around it are other leaves), non-negative composition offsets below 2^31, fewer than 134 million samples, file below 4 GiB, decode times below 2^64: the chunks exist and each of them is a segment that says sequence number, track, data, times, durations and offsets of its part. Refuted for negative composition offsets (version 1 runs): the chunks show them as unsigned."},
 {"property": "C42", "status": "partial", "theorems": ["C42_flags_partial", "C42_all_sync_partial", "C42_non_sync_refuted", "C42_sync_refuted"], "note": "Refuted both ways: per-sample flags are a text, always true, so non-sync samples become sync samples; default flags 0 become non-sync. What the chunks say is characterised exactly (C42_flags_partial), and the information survives if all samples are sync samples and own flags or non-zero default flags are present."},
 {"property": "C43", "status": "partial", "theorems": ["C43_paced_partial", "C43_start_refuted", "C43_simulate"], "note": "Proved for timeoffset 0, or no time offset and availability start time 0: chunk i is sent at production time minus 0.1 s or, if the process gets there later, then, for all schedules of a clock that does not go back. Refuted for another availability start time: the media time is used as wall-clock time. Also proved for simulate_continuous_production of chunker.py (C43_simulate)."},
 {"property": "C44", "status": "partial", "theorems": ["C44_written_partial", "C44_round_trip_partial", "C44_wide_refuted", "C44_read", "C44_golomb", "C44_golomb_endless"], "note": "Proved for fields of at most 33 bits (written_partial, round_trip_partial). Missing: wider fields; wide_refuted shows a 42 bit field raises IndexError because the mask table has 34 entries. C44_read, C44_golomb: reader and exp-Golomb for all buffers and positions. C44_golomb_endless: reading a code where no bit is set does not end."},
 {"property": "C45", "status": "partial", "theorems": ["C45_range_partial", "C45_no_bounds_partial", "C45_long_suffix_refuted", "C45_malformed_refuted", "C45_several_refuted"], "note": "Proved for every payload and every well formed single range (digits with leading zeros, any unit text) except suffix ranges longer than the payload, through the whole application; '-' alone gives the full payload. Refuted for suffixes longer than the payload (wrong bytes and negative positions), malformed ranges (ValueError escapes, no reply) and several ranges (206 with Content-Range None)."},
 {"property": "C46", "status": "proved", "theorems": ["C46_no_history"], "note": "For all histories of requests of the process, starting from the empty default dictionary of start_reply; the random session id is an input. No other state of the process is changed by a request (checked by reading)."},
 {"property": "C47", "status": "proved", "theorems": ["C47_redirect", "C47_follow", "C47_bounded", "C47_same_media"], "note": "Redirect target, no second redirect at any later time, service equal to the unlimited service during the session, no success status outside it, and the same media with and without the session parts. Times are request times: chunks of a chunked reply may be sent after the end of the session when the request came before it."},
 {"property": "C48", "status": "partial", "theorems": ["C48_order_config", "C48_order_request", "C48_last_wins_partial", "C48_flag_last_wins_refuted", "C48_stops_at_name", "C48_bad_number_rejected", "C48_unknown_key_is_name"], "note": "All clauses proved, last-wins for options that assign their value; options that only switch a flag on do not follow last-wins (C48_flag_last_wins_refuted)."},
 {"property": "C49", "status": "proved", "theorems": ["C49_up_down", "C49_down_up", "C49_minute_wrap_refuted"], "note": "Up/down pattern within the minute; the wrap over the minute is a finding (C49_minute_wrap_refuted)."},
 {"property": "C50", "status": "partial", "theorems": ["C50_frozen_partial", "C50_one_interval", "C50_equal_refuted"], "note": "Frozen manifests equal the one of the last up second apart from the event stream element (C50_frozen_partial), and all manifests of one down interval are equal (C50_one_interval). Literal equality with the last up second is false (C50_equal_refuted)."},
 {"property": "C51", "status": "partial", "theorems": ["C51_filter_partial", "C51_segment_partial", "C51_words", "C51_default_duration_refuted", "C51_first_flags_refuted", "C51_default_size_refuted", "C51_two_fragments_refuted"], "note": "Proved for all caption lists and all segments with one moof and one mdat whose run gives duration and size per sample, a data offset and no first-sample flags, samples being NAL units after 4-byte lengths, each caption at most 31 words (what the scc reader makes, C51_words), total below 2^32: the output is again a fragment, around the run and the mdat nothing changes, every sample keeps time, duration, flags and composition time and its NAL units with the captions of its time before the first slice, the sizes table is that of the new samples, and the captions inserted are a permutation of those in the segment. False otherwise: default durations (no caption inserted), first-sample flags (dropped, then an error or misplaced data), default sizes, and two fragments (a caption inserted three times). Times are exact rationals, floats in the code. sidx is not updated by the code."},
 {"property": "C52", "status": "proved", "theorems": ["C52_boxes", "C52_any_text", "C52_stpp", "C52_live", "C52_creators_fail"], "note": "mdhd writer of stpp_creator / boxes: three letters a-z are packed in 15 bits and read back; what any other text gives is stated too; stpp_creator's patched init. Finding: the TTML templates are str, so create_init_segment and create_media_segment always raise TypeError in Python 3 (C52_creators_fail)."},
 {"property": "C53", "status": "partial", "theorems": ["C53_terminates_partial", "C53_segments", "C53_mdat_search", "C53_size_zero_refuted", "C53_mdat_size_zero_refuted"], "note": "Terminates on all byte strings in which no visited box declares size 0, and on all well-formed segments; with size 0 the loops never end (_refuted theorems), so the unrestricted claim is false of the code."},
 {"property": "C54", "status": "partial", "theorems": ["C54_roundtrip_partial", "C54_comma_refuted", "C54_subtitles_refuted", "C54_same_id_refuted", "C54_short_refuted"], "note": "roundtrip_partial: after any accepted analysis, the written configuration is read back with the same loop, duration, buffer depth and media data, and each representation is found under its content type, for video and audio sets, ids without comma or outer white space and not shared with another set, and a nominal duration of at least one second. Refuted outside that: an id with a comma is split, sets of type subtitles are not written, a shared id is found as video, content of sub-second segments gives a file that is refused. The text form of the ini file (configparser) is not modelled."},
 {"property": "C55", "status": "partial", "theorems": ["C55_thumbnail_like_media_partial", "C55_thumbnail_refusal_raises", "C55_thumbnail_error_reply_refuted", "C55_thumbnail_timeoffset_refuted"], "note": "Same window and position as media. The error path raises instead of replying, and a time offset shifts thumbnails, so those clauses are false (_refuted theorems)."},
 {"property": "C56", "status": "partial", "theorems": ["C56_manifest_partial", "C56_single_period_partial", "C56_multi_period_partial", "C56_minus_one_refuted", "C56_time_offset_refuted"], "note": "Single period: zero ato, no stop time, no pinned last segments (C56_single_period_partial; with ato and stop time see C69_media_partial); periods_n: additionally epoch start, start number 0, no time offset, period a multiple of the segment duration (C56_multi_period_partial). An announced start number of -1 is read as 1, so the claim fails there (C56_minus_one_refuted); with periods_n and a time offset the last announced segments are refused (C56_time_offset_refuted). C56_manifest_partial reads the number and start off the generated tree."},
 {"property": "C57", "status": "partial", "theorems": ["C57_mux_same_timing_partial", "C57_mux_time_addressing_refuted"], "note": "Same timing for number addressing; time addressing of muxed segments is broken (C57_mux_time_addressing_refuted)."},
 {"property": "C58", "status": "partial", "theorems": ["C58_grid", "C58_loop_partial", "C58_duration_partial", "C58_total_refuted", "C58_missing_refuted"], "note": "grid: all representations of accepted content have consecutive numbers from the same first number and ends within 0.1 s of the grid. loop_partial: the looped segments of the first representation of each set last within 0.1 s of the loop duration. duration_partial: the same for the noted total duration when the set is as long as the loop. Refuted otherwise: sets of different length are accepted (total far off the loop), and a further representation shorter than the loop is accepted."},
 {"property": "C59", "status": "partial", "theorems": ["C59_replaced_partial", "C59_resolve_partial", "C59_mentioned_refuted", "C59_ads_refuted", "C59_base_refuted", "C59_two_bases_refuted", "C59_no_periods_refuted"], "note": "Exact text of the xlink manifest (which children become links, which stay, with or without ads) and of the reply to a link request, for manifests whose Period ids come first and are not mentioned earlier in the document and which have one BaseURL without attributes. Refuted outside of that: an id found earlier in the text (p4 in mp4) damages another period, periods that stay get an AssetIdentifier when ads are inserted, a BaseURL with attributes gives IndexError, two BaseURLs give a broken href, periods_0 gives ZeroDivisionError."},
 {"property": "C60", "status": "proved", "theorems": ["C60_statuses", "C60_error_text", "C60_success", "C60_delivered"], "note": "For all requests, histories and limits: statuses are 200, 206, 302, 404, 410; error statuses have type text/plain and one of the server's texts as body; 200/206 bodies are contiguous parts of what the provider delivered or its chunks; delivered content gets 200 or 206. An exception in the range parser leaves no reply (C45)."},
 {"property": "C61", "status": "proved", "theorems": ["C61_one_track", "C61_several", "C61_long_header_refuted"], "note": "Refuted for version 1 media headers: the time scale is read from the wrong place."},
 {"property": "C62", "status": "partial", "theorems": ["C62_periods_partial", "C62_attributes", "C62_tree_partial", "C62_front_refuted", "C62_timeline_partial"], "note": "C62_tree_partial: every source with one Period, every addressing mode and session (loss schedules included), all root attributes; C62_timeline_partial: what the SegmentTimelines list. Missing: negative time shift buffers; for several periods, sources with other elements before the Period, where the claim is false (C62_front_refuted)."},
 {"property": "C63", "status": "proved", "theorems": ["C63_base_url", "C63_source_base"], "note": "BaseURL text, its splitting by the server and the resulting configuration, for sources without (C63_base_url) and with (C63_source_base) a BaseURL of their own; for sessions without baseurl and relative options where the source has none (those are C64, C65)."},
 {"property": "C64", "status": "partial", "theorems": ["C64_base_urls_refuted"], "note": "False: C64_base_urls_refuted. The baseurl parts are blanked, not removed, and the option is put after the content name, so every BaseURL leads to an unknown content name."},
 {"property": "C65", "status": "partial", "theorems": ["C65_location", "C65_reload", "C65_media_refuted", "C65_one_sided_refuted"], "note": "Location text and reload proved (C65_location, C65_reload) for options that do not read the clock otherwise. False for media requested from the first manifest, which has no BaseURL (C65_media_refuted); one relative option alone raises (C65_one_sided_refuted)."},
 {"property": "C66", "status": "proved", "theorems": ["C66_generator", "C66_server"], "note": "For all accepted content, through the table bytes and the configuration file model, and any server configuration the result is loaded into. The conclusion is the hypothesis (gen_ok, on_grid) of the timeline theorems C26 to C28."},
 {"property": "C67", "status": "proved", "theorems": ["C67_single", "C67_muxed", "C67_default_url"], "note": "Whole bodies (no Range header, not chunked, no subtitles). Stored files are well-formed segments; a 404 also covers errors raised while filtering. The joint segment is stated for segments of the shape of C39."},
 {"property": "C68", "status": "proved", "theorems": ["C68_window", "C68_default_url"], "note": "C68_window: reply status for every configuration (given the stored file at the position of C67); C68_default_url: the same for a URL without options with the window in closed form. What the body is follows from C67_single."},
 {"property": "C69", "status": "partial", "theorems": ["C69_media_partial", "C69_offset_partial", "C69_init_partial", "C69_offset_refuted"], "note": "C69_media_partial, C69_offset_partial and C69_init_partial are for sessions (record live_session) with one Period or several aligned ones with availability start 0 and start number 0, number templates, any finite availability offset written exactly in microseconds, open or ended by a stop time with a start number of at least 0; no multiple base URLs, time offset, chunked mode, inserted ads or sidx; source manifests whose Period follows only ProgramInformation and without BaseURL, a media template that fills in to id/number.m4s, a nominal duration equal to the stored one, and video or audio. C69_offset_refuted: with a template timescale other than 1 the presentationTimeOffset of a further Period is in seconds. Not covered: segment timelines, availability offset INF, time offset, source BaseURL."},
 {"property": "C70", "status": "proved", "theorems": ["C70_signals"], "note": "Every site, URL, time and source tree with one Period, whatever precedes it (then possibly only the first period of the schedule is listed, C62_front_refuted)."},
 {"property": "C71", "status": "partial", "theorems": ["C71_announced_partial", "C71_sent_partial", "C71_unannounced_loss_refuted", "C71_late_refuted", "C71_content_type_refuted", "C71_unused_refuted"], "note": "C71_announced: every event box sent (stored segment without events, not chunked) is a splice, then announced in every video set, or a loss event, announced if the manifest is of the same second and segtimelineloss_1 was given. C71_sent: due splices and loss events are in the segment (stored segment with styp). Refuted beyond that: no segtimelineloss, manifest of the second before, no contentType, scte35_9. Missing: baseurl_u0_dY, several baseurl options, chunked mode."},
 {"property": "C72", "status": "partial", "theorems": ["C72_listed_partial"], "note": "C72_listed_partial: end to end over HTTP for one Period or several, by time (segtimeline_1) or number (segtimelinenr_1), sources whose media template is $RepresentationID$/$Number$.m4s without presentationTimeOffset. Missing, because refuted elsewhere: start numbers and time offsets (C27_start_number_refuted, C27_timeoffset_refuted), stop times (C27_stopped_refuted), windows that touch a run of the table twice (C26, C27_wrap_refuted). Also missing: chunked delivery, inserted sidx, subtitles, infinite availability offset, requests for the further segment duration that the server grants after the buffer."},
 {"property": "C73", "status": "partial", "theorems": ["C73_inside_partial", "C73_complete_partial", "C73_twice_refuted"], "note": "C73_inside_partial: each listed segment is complete and ends in its Period, so a segment in two lists ends exactly at the boundary. C73_complete_partial: each complete segment that ends in the Period and the buffer is listed (no early termination of periods). C73_twice_refuted: the segment that ends at the boundary is in both lists. Conditions as in C72."},
 {"property": "C74", "status": "partial", "theorems": ["C74_same_reply_partial", "C74_going_down_refuted"], "note": "Proved for every media URL without a moving option, for any two clocks, histories and session ids, when neither moment is the last second before a simulated up/down server goes down. Refuted in that second (C74_going_down_refuted): the same segment then has an additional event box."},
 {"property": "C75", "status": "partial", "theorems": ["C75_grid", "C75_in_step_partial", "C75_joint", "C75_start_refuted", "C75_missing_refuted"], "note": "C75_grid and C75_joint: each reply of a session with any options lies on the grid to 0.1 s, consecutive replies join. C75_in_step_partial: same number of two representations, ends within 0.2 s when both are measured from the start of their own content. Refuted beyond that: content whose representations start at different times (C75_start_refuted), and availability of both (C75_missing_refuted). Hypotheses: audio or video, one fragment with one run per segment, not chunked."},
 {"property": "C76", "status": "partial", "theorems": ["C76_analysis_partial", "C76_served_partial", "C76_bandwidth_refuted", "C76_start_number_refuted", "C76_level_refuted", "C76_copy_refuted", "C76_zero_refuted"], "note": "C76_analysis_partial: for all manifests and directories with templates of text, $RepresentationID$ and one $Number$, and directories in which nothing else begins like a segment, the analysis is the analysis of the named files (equal results, errors included). C76_served_partial: with the usual template the server's configuration and files are those (the premises of C75). Refuted beyond that: $Bandwidth$, absent startNumber, template in the Representation, copies of segments, leading zeros. Missing: file names with pattern characters."},
 {"property": "C77", "status": "partial", "theorems": ["C77_complete_partial", "C77_init_partial", "C77_chunks", "C77_media_data", "C77_first_iv", "C77_written", "C77_hevc_refuted", "C77_size_refuted", "C77_saiz_refuted"], "note": "Proved for all boxes that meet the condition proper, for all init segments and fragments, together with the media data offset, the position of the first initialization vector and success of the writer. False without the condition (C77_size_refuted), for HEVC (C77_hevc_refuted) and for the sample count of saiz (C77_saiz_refuted)."},
 {"property": "C78", "status": "proved", "theorems": ["C78_server", "C78_live"], "note": "Both for files below 4 GiB. The boxes given as bytes (esds, dac3, dec3) are assumed to be complete boxes. HEVC is never written (C77_hevc_refuted)."},
 {"property": "C79", "status": "partial", "theorems": ["C79_time", "C79_offset_partial", "C79_sync", "C79_place", "C79_negative_refuted", "C79_outside_refuted"], "note": "Proved for every sample of the track for all tables, with composition offsets from 0 on. False for negative offsets (read without sign) and for sample numbers outside the track (given a time)."},
 {"property": "C80", "status": "partial", "theorems": ["C80_movie", "C80_track", "C80_handler", "C80_defaults", "C80_fragment", "C80_video_partial", "C80_audio_partial", "C80_avc", "C80_decoder_partial", "C80_entries", "C80_sizes", "C80_offset", "C80_groups_partial", "C80_vectors_partial", "C80_index_partial", "C80_brands", "C80_cue", "C80_width_refuted", "C80_rate_refuted", "C80_decoder_refuted", "C80_sample_groups_refuted", "C80_vectors_refuted", "C80_group_outside_refuted"], "note": "Proved for all boxes named but sample-to-group; sample entries with width, height, channels and sample size below 32768 and rate below 65536, decoder configurations below 105 bytes, protected samples without subsamples, initialization vector sizes below 128, group descriptions up to the last and after the one following it. False for larger widths and rates, longer configurations, with subsamples, for sbgp and for the group entry just after the last. Missing: media headers (C52), runs of fragments (chunk claims)."},
 {"property": "C81", "status": "partial", "theorems": ["C81_answered_partial", "C81_ads_refuted", "C81_callback_refuted", "C81_relative_refuted", "C81_video_only_refuted", "C81_first_segment_refuted", "C81_early_period_refuted"], "note": "Proved for all times, environments and stored manifests with a Period, for sessions whose options are consistent in the sense of AnswerSpec.v (insertad only with links, callbacks only with a BaseURL, both relative session times or none, known clock methods), by number or with segment timelines. For timelines the hypotheses (listable) are tables of both tracks that describe the loop, a first segment that is over, templates of video or audio with a media attribute, and for several periods a time shift buffer after time 0. False for six combinations outside of it."},
 {"property": "C82", "status": "partial", "theorems": ["C82_parse_partial", "C82_find", "C82_order", "C82_tracks_partial", "C82_no_video_partial", "C82_empty_last_refuted", "C82_empty_refuted", "C82_type_refuted", "C82_scheme_refuted", "C82_ac3_refuted", "C82_long_refuted", "C82_to_end_refuted", "C82_no_audio_refuted", "C82_avc3_refuted"], "note": "C82_find and C82_order hold for all trees and paths of types. C82_parse_partial and C82_tracks_partial are for files of non-empty containers, 32-bit sizes and ASCII types (well_made), whose boxes the classes can read (file_readable; classes that are not modelled are taken not to raise), with one moov and one mdia per track. The rest is false, see the refuted theorems."},
 {"property": "C83", "status": "partial", "theorems": ["C83_durations_partial", "C83_empty_run_refuted", "C83_no_default_refuted", "C83_unsigned_refuted", "C83_points_partial", "C83_narrow_refuted", "C83_fragments", "C83_fragment_zero_refuted", "C83_offsets", "C83_seek_partial", "C83_seek_refuted", "C83_seek_empty_refuted", "C83_end_partial", "C83_end_refuted", "C83_tail"], "note": "C83_fragments, C83_offsets and C83_tail hold for all encoded tables. C83_durations_partial is for non-empty runs with offsets below 2^31 whose durations are in the run or given; C83_points_partial for three-byte numbers below 65536; C83_seek_partial for times at which no fragment but the first begins; C83_end_partial for two points or more. The rest is false, see the refuted theorems."},
 {"property": "C84", "status": "partial", "theorems": ["C84_samples_partial", "C84_chunks_partial", "C84_default_url_partial", "C84_between_refuted", "C84_base_offset_refuted", "C84_tick_refuted"], "note": "For stored segments whose media data is in the mdat box right after moof, found by the data offset of trun, with one tfdt and no styp or sidx inside moof; the chunks also need composition offsets in [0,2^31) and a chunk duration of a tick or more, and the flags in chunks are not kept (C42). Without that it is false, see the refuted theorems."},
 {"property": "C85", "status": "partial", "theorems": ["C85_cues_partial", "C85_cover_partial", "C85_live_partial", "C85_overlap_refuted", "C85_hundred_hours_refuted", "C85_language_refuted", "C85_no_output_refuted"], "note": "The documents are proved to be right in general for cue lengths that divide the segment duration, three-letter codes and times below 100 hours. False in general, see the refuted theorems; in particular the tool as it stands writes nothing, so that the theorems are about the documents it makes and not about files."},
 {"property": "C86", "status": "partial", "theorems": ["C86_pssh_partial", "C86_hevc_partial", "C86_adjustments_partial", "C86_data_position_partial", "C86_data_position_refuted"], "note": "The fields are proved to be read as stored, for all layouts. The position of the data is right only for version 0, see the refuted theorem."},
 {"property": "C87", "status": "proved", "theorems": ["C87_messages", "C87_silent", "C87_analyzed", "C87_cut_off"], "note": "For all files of bytes; gaps are stated over the segments that the entries stand for, not over the entries. The printed text is modelled by its two numbers."},
 {"property": "C88", "status": "partial", "theorems": ["C88_segment_runs_partial", "C88_fragment_runs_partial", "C88_bootstrap_partial", "C88_random_access_partial", "C88_qualities_refuted", "C88_offsets_refuted"], "note": "Proved for all layouts with as many qualities as servers and, for global entries, ids and offsets both long or both short; the run tables are read right in general. The other cases are refuted."},
 {"property": "C89", "status": "partial", "theorems": ["C89_map_partial", "C89_track_partial", "C89_no_map", "C89_clear_refuted", "C89_pattern_refuted"], "note": "False of the code as it is. The partial theorem is about its loops with types looked for as bytes; [text] of the model is the only difference, and [written] is what the code has. Which tenc box a track has is an input."},
 {"property": "C90", "status": "proved", "theorems": ["C90_extended", "C90_fragment_time", "C90_next_times"], "note": "For all boxes with version and flags. Nothing in the library makes the objects for the contents from uuid boxes; the theorems give them content and version as the box has them."},
 {"property": "C91", "status": "partial", "theorems": ["C91_all_partial", "C91_first_partial", "C91_first_refuted"], "note": "Proved for asking for all boxes, and for asking for one where the last part of the path is a type. Asking for one with a criterion as the last part is refuted: it fails though the box exists. The path is taken as already split at its dots, children as already parsed, attributes as the text str() makes of them; steps to the parent are left out."}
]}
