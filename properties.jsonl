{"id": "C01", "title": "Media segment availability window is exact", "statement": "With a finite availability time offset and no end limits, a request for media segment number n at time now returns the segment exactly when n >= startNumber and AST+(n-startNumber+1)*d-ato <= now <= AST+(n-startNumber+2)*d+tsbd and now is at or after the first-segment availability time AST+d-ato; in every other case it returns an error response and no media.", "quantifier": "every configuration (AST, startNumber, segment duration, ato, time-shift buffer depth), every segment number and every real request time", "why_tests_cant": "the window boundaries depend on five unbounded parameters; tests sample a handful of (time, number) pairs and cannot show that no other pair is wrongly accepted or refused", "anchors": ["dashlivesim/dashlib/dash_proxy.py:get_media", "dashlivesim/dashlib/dash_proxy.py:process_media_segment"]}
{"id": "C02", "title": "Availability of a segment never flaps", "statement": "For a fixed URL without sliding start time, the set of request times at which a given segment is served is an interval: once it has been served and later refused it is never served again, and it is never refused between two times at which it is served.", "quantifier": "all configurations with fixed AST, all segment numbers, all triples of request times", "why_tests_cant": "it is a statement about all triples of times", "anchors": ["dashlivesim/dashlib/dash_proxy.py:get_media", "dashlivesim/dashlib/dash_proxy.py:process_media_segment"]}
{"id": "C03", "title": "Infinite availability time offset disables timing checks only", "statement": "With ato_inf every segment number >= startNumber (and within any configured end) is served at every time from AST on, and nothing is served before AST or below startNumber.", "quantifier": "all configurations with infinite offset, all segment numbers and times", "why_tests_cant": "unbounded numbers and times", "anchors": ["dashlivesim/dashlib/dash_proxy.py:get_media", "dashlivesim/dashlib/dash_proxy.py:process_media_segment", "dashlivesim/dashlib/configprocessor.py:ConfigProcessor.process_url"]}
{"id": "C04", "title": "startNumber only relabels segments", "statement": "Serving segment n+k under snr_(s+k) gives the same decision, the same VoD source segment, the same time offset and the same media time as serving segment n under snr_s at the same moment; only the requested number differs.", "quantifier": "all s, k with s, s+k >= 0, all segment numbers, times and configurations", "why_tests_cant": "equivalence of two runs for all pairs of start numbers", "anchors": ["dashlivesim/dashlib/dash_proxy.py:process_media_segment", "dashlivesim/dashlib/configprocessor.py:ConfigProcessor.interpret_start_nr"]}
{"id": "C05", "title": "start/stop sessions serve exactly the numbered segments of the interval", "statement": "With start_a and stop_b the AST is the largest multiple of d not above a, the stop time is the smallest multiple of d not below b (for segment durations of 1..1000 s), the advertised media presentation duration is their difference, and a segment number is ever served only if it is one of the (stop-start)/d consecutive numbers from the start number; and those remain available for ever once they have become available.", "quantifier": "all integers a <= b, all segment durations 1..1000, all numbers and times", "why_tests_cant": "rounding and off-by-one behaviour over unbounded integers", "anchors": ["dashlivesim/dashlib/configprocessor.py:Config.process_start_time", "dashlivesim/dashlib/configprocessor.py:Config.stop_number", "dashlivesim/dashlib/dash_proxy.py:process_media_segment"]}
{"id": "C06", "title": "Duration-limited sessions: nothing after the last segment, lmsg exactly on it", "statement": "With start_a and dur_x1/.../dur_xk the segments served are exactly among numbers 0..L where (L+1)*d is the total quantized duration, no number above L is ever served, and the 'lmsg' last-segment brand is put in segment L and in no other; with a non-default start number (snr_s) the same holds for numbers shifted by s.", "quantifier": "all start times, duration lists, start numbers and request times", "why_tests_cant": "must hold for every duration list and start number", "anchors": ["dashlivesim/dashlib/configprocessor.py:Config.process_start_time", "dashlivesim/dashlib/dash_proxy.py:process_media_segment", "dashlivesim/dashlib/mediasegmentfilter.py:MediaSegmentFilter.process_styp"]}
{"id": "C07", "title": "No media after availabilityEndTime plus 60 s", "statement": "If the configuration has an availabilityEndTime, every media or thumbnail request whose whole-second time exceeds it by more than 60 s is answered with an error.", "quantifier": "all configurations with end time and all times", "why_tests_cant": "unbounded times and all option combinations", "anchors": ["dashlivesim/dashlib/dash_proxy.py:get_media"]}
{"id": "C08", "title": "Init segments are available exactly from AST minus the init offset", "statement": "An init segment request succeeds exactly when the whole-second request time is >= AST - init offset, and the set of success times is upward closed.", "quantifier": "all configurations and times", "why_tests_cant": "unbounded times", "anchors": ["dashlivesim/dashlib/dash_proxy.py:get_init"]}
{"id": "C09", "title": "Live-to-VoD loop mapping is a bijection per loop and always in range", "statement": "The VoD segment file chosen for live segment n lies in [first, first+N), consecutive live segments use cyclically consecutive files, the mapping is periodic with period N, every file is used exactly once per loop, and the time offset added equals (number of completed loops) * N*d.", "quantifier": "all segment numbers, loop lengths N >= 1, durations d >= 1 and first-segment numbers", "why_tests_cant": "unbounded numbers, any loop length", "anchors": ["dashlivesim/dashlib/dash_proxy.py:process_media_segment"]}
{"id": "C10", "title": "The media timeline is continuous across loop wraps", "statement": "If the VoD segments have contiguous decode times covering exactly one loop, then for every n the decode time in served segment n+1 equals the decode time in served segment n plus the duration of the VoD segment behind n - including at every wrap.", "quantifier": "all VoD timelines whose total duration equals the loop duration, all n", "why_tests_cant": "infinitely many n, all content", "anchors": ["dashlivesim/dashlib/dash_proxy.py:process_media_segment", "dashlivesim/dashlib/mediasegmentfilter.py:MediaSegmentFilter.process_tfdt"]}
{"id": "C11", "title": "Media sequence number equals the requested segment number", "statement": "Every served non-multiplexed segment carries in its movie fragment header exactly the requested number, for numbers representable in 32 bits; larger numbers yield an error, never a silently wrapped value.", "quantifier": "all segments files with well-formed boxes, all numbers", "why_tests_cant": "all inputs", "anchors": ["dashlivesim/dashlib/mediasegmentfilter.py:MediaSegmentFilter.process_mfhd", "dashlivesim/dashlib/mp4filter.py:MP4Filter.filter"]}
{"id": "C12", "title": "Widening the decode time keeps all byte pointers valid", "statement": "When a segment's decode time no longer fits 32 bits the box is widened to 64 bits, and afterwards all enclosing box sizes are right and the sample-data pointer (trun data offset) and auxiliary-info pointers (saio) still designate the same bytes as before; when it fits, or the box already is 64-bit, no size changes.", "quantifier": "all well-formed single-track segments, all offsets and timescales", "why_tests_cant": "the 2^32 threshold and arbitrary box contents", "anchors": ["dashlivesim/dashlib/mediasegmentfilter.py:MediaSegmentFilter.process_tfdt", "dashlivesim/dashlib/mediasegmentfilter.py:MediaSegmentFilter.process_trun", "dashlivesim/dashlib/mediasegmentfilter.py:MediaSegmentFilter.process_saio", "dashlivesim/dashlib/mp4filter.py:MP4Filter.filter_box"]}
{"id": "C13", "title": "Rewritten segments are well-formed box sequences", "statement": "If the VoD segment parses as a sequence of boxes whose declared sizes tile the file, then the served segment parses the same way at top level and inside moof and traf.", "quantifier": "all well-formed box trees and all filter parameters", "why_tests_cant": "arbitrary box trees", "anchors": ["dashlivesim/dashlib/mp4filter.py:MP4Filter.filter", "dashlivesim/dashlib/mp4filter.py:MP4Filter.filter_box", "dashlivesim/dashlib/mediasegmentfilter.py:MediaSegmentFilter"]}
{"id": "C14", "title": "Filtering changes only the documented fields", "statement": "Apart from styp brands, dropped sidx, mfhd number, tfdt value/version, trun data offset and saio offsets, every box of a served (non-TTML) segment is byte-identical to the VoD segment, in the same order; in particular all media data are unchanged.", "quantifier": "all well-formed segments and parameters", "why_tests_cant": "arbitrary content", "anchors": ["dashlivesim/dashlib/mp4filter.py:MP4Filter.filter_box", "dashlivesim/dashlib/mediasegmentfilter.py:MediaSegmentFilter"]}
{"id": "C15", "title": "lmsg brand handling is exact and idempotent", "statement": "After filtering, the styp brand list is the original list with every 'lmsg' removed, followed by one 'lmsg' exactly if the segment is a last one; the box size matches.", "quantifier": "all brand lists", "why_tests_cant": "arbitrary lists", "anchors": ["dashlivesim/dashlib/mediasegmentfilter.py:MediaSegmentFilter.process_styp"]}
{"id": "C16", "title": "tfdt_32 sessions keep decode times in 32 bits", "statement": "With the tfdt_32 option AST is the latest multiple of 3 h not after now, AET is 3 h later, and every segment that is served has start time * timescale < 2^32 whenever 3 h (+ ato) of ticks fit in 32 bits.", "quantifier": "all times, timescales, segments", "why_tests_cant": "unbounded times", "anchors": ["dashlivesim/dashlib/configprocessor.py:Config.update_for_tfdt32", "dashlivesim/dashlib/dash_proxy.py:process_media_segment"]}
{"id": "C17", "title": "Continuously updated sessions always have one available segment", "statement": "With cont_1 the AST is a multiple of d with AST+d <= now < AST+2d, so the first segment of the session is served at every request time and the second is not (with zero ato).", "quantifier": "all times and durations", "why_tests_cant": "unbounded times", "anchors": ["dashlivesim/dashlib/configprocessor.py:Config.update_for_cont_update", "dashlivesim/dashlib/dash_proxy.py:process_media_segment"]}
{"id": "C18", "title": "Announced end time follows the duration list in order", "statement": "For start_a/dur_x1/.../dur_xk with non-negative durations the availabilityEndTime announced at time now is the first cumulative end time that is still more than or exactly 2*minimumUpdatePeriod ahead of now, or the last one if there is none; it never decreases as time passes; and mediaPresentationDuration is the matching cumulative duration.", "quantifier": "all start times, non-empty duration lists, update periods and times", "why_tests_cant": "any list and any time", "anchors": ["dashlivesim/dashlib/configprocessor.py:Config.update_with_aet", "dashlivesim/dashlib/configprocessor.py:Config.process_start_time"]}
{"id": "C19", "title": "modulo_x follows the documented table", "statement": "For modulo_x (x dividing 60, x>=1) AST, mediaPresentationDuration, minimumUpdatePeriod and AET at every second follow the documented schedule: 20/40/60/80 % of the interval in [0,10),[10,30),[30,50),[50,90) % and the next interval's AST with 20 % in [90,100) %; announced end times never decrease within an interval.", "quantifier": "all x and all times", "why_tests_cant": "all seconds of all intervals", "anchors": ["dashlivesim/dashlib/moduloperiod.py:ModuloPeriod"]}
{"id": "C20", "title": "modulo_x sessions end where the MPD says they end", "statement": "In a modulo_x session no segment beyond the announced mediaPresentationDuration is served and the last one carries lmsg.", "quantifier": "all x, times and segment numbers", "why_tests_cant": "all times", "anchors": ["dashlivesim/dashlib/moduloperiod.py:ModuloPeriod.calc_last_segment_number", "dashlivesim/dashlib/configprocessor.py:Config.update_with_modulo_period", "dashlivesim/dashlib/dash_proxy.py:process_media_segment"]}
{"id": "C21", "title": "timeoffset: manifest numbering and media timing agree", "statement": "With timeoffset_t (and AST, t multiples of d, startNumber >= 0) the segment the manifest names first (startNumber) is the first one served, its media time equals the announced presentationTimeOffset, and each further number is one segment duration later.", "quantifier": "all AST, t, d, start numbers", "why_tests_cant": "all parameter values", "anchors": ["dashlivesim/dashlib/configprocessor.py:Config.adjusted_start_number", "dashlivesim/dashlib/configprocessor.py:Config.adjusted_pto", "dashlivesim/dashlib/mpd_proxy.py:generate_dynamic_mpd", "dashlivesim/dashlib/dash_proxy.py:process_media_segment"]}
{"id": "C22", "title": "Manifest turns static exactly after the stop time", "statement": "The manifest type is 'static' exactly when a stop time is configured and now is later than it, static manifests carry no minimumUpdatePeriod, and the change is permanent.", "quantifier": "all configurations and times", "why_tests_cant": "all times", "anchors": ["dashlivesim/dashlib/mpd_proxy.py:generate_dynamic_mpd", "dashlivesim/dashlib/mpdprocessor.py:MpdProcessor.process_mpd"]}
{"id": "C23", "title": "Multi-period manifests tile the time-shift window", "statement": "With periods_n (n>0) the periods are consecutive, each starts where the previous ends, the first starts no later than now-tsbd-d, the last starts no later than now + half a period and ends after now + half a period - 1, ids are distinct, and every period but the last gets the nominal duration unless terminated early.", "quantifier": "all n in the allowed set, all times, buffer depths, durations", "why_tests_cant": "all times", "anchors": ["dashlivesim/dashlib/mpd_proxy.py:generate_period_data"]}
{"id": "C24", "title": "Multi-period start numbers address the right media", "statement": "If the period duration is a multiple of d and AST is the epoch, the segment number announced for a period denotes the segment whose media time equals the period start and its presentationTimeOffset, hence numbering is continuous over period boundaries; otherwise the number is the one of the segment containing the period start.", "quantifier": "all periods, durations, times", "why_tests_cant": "all values", "anchors": ["dashlivesim/dashlib/mpd_proxy.py:generate_period_data", "dashlivesim/dashlib/dash_proxy.py:process_media_segment"]}
{"id": "C25", "title": "Period options reject non-divisors and select every k-th period", "statement": "Unsupported period counts raise an error; early-termination, callback and xlink counts that do not divide the period count raise an error; otherwise precisely the periods whose number is a multiple of the quotient are selected, and a fixed period is selected or not independent of when the manifest is fetched.", "quantifier": "all option values and times", "why_tests_cant": "all values", "anchors": ["dashlivesim/dashlib/mpd_proxy.py:get_mpd", "dashlivesim/dashlib/mpd_proxy.py:generate_period_data", "dashlivesim/dashlib/mpd_proxy.py:generate_response_with_xlink"]}
{"id": "C26", "title": "SegmentTimeline lists exactly the complete segments of the window", "statement": "For content whose timing table is contiguous and fills the loop exactly, the generated SegmentTimeline expands to a gap-free list of consecutive VoD-loop segments, beginning with the segment that contains the window start and ending with the last segment that ends at or before the window end, with correct start times, durations and first number.", "quantifier": "all timing tables (any run structure), all windows, any number of loop wraps", "why_tests_cant": "any table, any window", "anchors": ["dashlivesim/dashlib/segtimeline.py:SegmentTimeLineGenerator.create_segtimeline"]}
{"id": "C27", "title": "Every segment advertised in a SegmentTimeline is served", "statement": "At the moment a SegmentTimeline manifest is generated, every segment it lists - addressed by time or by number - is accepted by the media server at that moment (drift below 0.1 s, window inside tsbd).", "quantifier": "all tables within the drift bound, all times", "why_tests_cant": "relates two code paths for all inputs", "anchors": ["dashlivesim/dashlib/segtimeline.py:SegmentTimeLineGenerator", "dashlivesim/dashlib/dash_proxy.py:process_media_segment", "dashlivesim/dashlib/mpdprocessor.py:MpdProcessor.update_periods"]}
{"id": "C28", "title": "Successive SegmentTimelines are consistent", "statement": "For two manifests generated at times t1 <= t2, segments listed in both have identical start time, duration and number; the later list starts no earlier and ends no earlier.", "quantifier": "all pairs of times", "why_tests_cant": "pairs of runs", "anchors": ["dashlivesim/dashlib/segtimeline.py:SegmentTimeLineGenerator.create_segtimeline"]}
{"id": "C29", "title": "Time-addressed and number-addressed requests name the same segment", "statement": "A request t<T> with T within half a segment duration (exclusive) of the nominal start of segment k resolves to number k.", "quantifier": "all timescales, durations, T", "why_tests_cant": "all values including float rounding", "anchors": ["dashlivesim/dashlib/dash_proxy.py:process_media_segment"]}
{"id": "C30", "title": "Timing-table files round-trip", "statement": "The run-length timing table written by the analyzer, when read back, expands to exactly the analyzed list of (number, start, duration), for contiguous segments; and values outside the field widths are refused rather than truncated.", "quantifier": "all segment lists", "why_tests_cant": "all lists", "anchors": ["dashlivesim/vodanalyzer/dashanalyzer.py:DashAnalyzer.checkAndUpdateMediaData", "dashlivesim/dashlib/segtimeline.py:SegmentTimeLineGenerator.__init__", "dashlivesim/dashlib/configprocessor.py:SEGTIMEFORMAT"]}
{"id": "C31", "title": "ISO durations round-trip", "statement": "Writing a non-negative integer number of seconds below one day as an ISO-8601 duration and parsing it back gives the same number; distinct inputs give distinct texts.", "quantifier": "all second counts", "why_tests_cant": "all integers", "anchors": ["dashlivesim/dashlib/timeformatconversions.py:seconds_to_iso_duration", "dashlivesim/dashlib/timeformatconversions.py:iso_duration_to_seconds"]}
{"id": "C32", "title": "UTC timestamps are calendar-correct", "statement": "The timestamp text written for t seconds after the epoch denotes exactly that instant in the proleptic Gregorian calendar (year, month, day in range, leap years respected) and is strictly monotone as an instant; distinct instants give distinct texts.", "quantifier": "all t with years up to 9999", "why_tests_cant": "all instants", "anchors": ["dashlivesim/dashlib/timeformatconversions.py:make_timestamp"]}
{"id": "C33", "title": "Subtitle times shift by exactly the loop offset", "statement": "Every begin/end time hh:mm:ss in a subtitle document is replaced by the text of that time plus the offset, with the rest of the document unchanged; a zero offset leaves canonical times unchanged; shifting twice equals shifting by the sum (while hours stay two digits).", "quantifier": "all documents, offsets", "why_tests_cant": "all byte strings", "anchors": ["dashlivesim/dashlib/ttml_timing_offset.py:adjust_ttml_content"]}
{"id": "C34", "title": "SCTE-35 splice messages: once per ad, ahead of time", "statement": "For scte35_n, each splice point of the schedule is announced in at least one segment beginning no later than 6 s and no earlier than segment duration + 8 s before the splice; the time delta is non-negative, the event id is a function of the splice time only, and segments not covering a pre-warning instant carry no message.", "quantifier": "all segment durations and numbers", "why_tests_cant": "all segments over unbounded time", "anchors": ["dashlivesim/dashlib/mediasegmentfilter.py:MediaSegmentFilter.create_scte35box", "dashlivesim/dashlib/scte35.py:Scte35Emsg"]}
{"id": "C35", "title": "emsg boxes are self-consistent and parse back", "statement": "For ASCII scheme, value and data the emsg box size equals its length and parsing it recovers all fields.", "quantifier": "all strings and 32-bit fields", "why_tests_cant": "all strings", "anchors": ["dashlivesim/dashlib/emsg.py:Emsg.get_box", "dashlivesim/dashlib/mp4.py:emsg_box"]}
{"id": "C36", "title": "Generated sidx boxes describe the segment", "statement": "The optional sidx is 52 bytes, is inserted directly before the moof, gives the served decode time, the fragment's total sample duration, and a referenced size equal to moof plus mdat, i.e. exactly the rest of a single-fragment segment.", "quantifier": "all segments", "why_tests_cant": "all contents", "anchors": ["dashlivesim/dashlib/mediasegmentfilter.py:MediaSegmentFilter.create_sidx", "dashlivesim/dashlib/mediasegmentfilter.py:MediaSegmentFilter.finalize"]}
{"id": "C37", "title": "Live init segments differ only in zeroed durations", "statement": "The live init segment has the same length as the VoD one, has zero duration in movie, track and media headers, equals it everywhere else, and filtering again changes nothing.", "quantifier": "all well-formed init segments (either header version)", "why_tests_cant": "all contents", "anchors": ["dashlivesim/dashlib/initsegmentfilter.py:InitLiveFilter"]}
{"id": "C38", "title": "Multiplexed init segments contain both tracks", "statement": "The multiplexed init segment is a well-formed box sequence containing the first file's ftyp and movie header, both track boxes and both track-extends boxes unchanged.", "quantifier": "all pairs of init segments", "why_tests_cant": "all contents", "anchors": ["dashlivesim/dashlib/segmentmuxer.py:MultiplexInits.construct_muxed"]}
{"id": "C39", "title": "Multiplexed media segments point each track to its own samples", "statement": "In a sample-level multiplexed segment the box sizes are right and the data offset of each track designates, in the joint mdat, exactly the bytes the track's offset designated in its own segment.", "quantifier": "all pairs of single-fragment segments", "why_tests_cant": "all sizes", "anchors": ["dashlivesim/dashlib/segmentmuxer.py:MultiplexMediaSegments.mux_on_sample_level"]}
{"id": "C40", "title": "Chunking is a lossless partition at the right boundaries", "statement": "Splitting a segment into chunks preserves the sample sequence, no chunk is empty (for positive chunk duration), every chunk but the last lasts at least until its nominal boundary, and a new chunk starts at the first sample at or after each boundary.", "quantifier": "all sample lists, chunk durations", "why_tests_cant": "all lists", "anchors": ["dashlivesim/dashlib/chunker.py:partition"]}
{"id": "C41", "title": "Each chunk is a self-contained fragment with the right timing and data", "statement": "Parsing the chunks again yields the original samples' data, decode times, durations and composition offsets; the data offset of each chunk points at its first sample byte; sequence number and track id are those of the segment.", "quantifier": "all segments", "why_tests_cant": "all contents", "anchors": ["dashlivesim/dashlib/chunker.py:chunk", "dashlivesim/dashlib/chunker.py:decode_fragment", "dashlivesim/dashlib/boxes.py:create_moof", "dashlivesim/dashlib/boxes.py:create_mdat", "dashlivesim/dashlib/mp4.py:trun_box"]}
{"id": "C42", "title": "Chunking preserves sync-sample information", "statement": "A sample is flagged as random access point in the chunk exactly when it was in the segment.", "quantifier": "all segments", "why_tests_cant": "all flag values", "anchors": ["dashlivesim/dashlib/chunker.py:decode_fragment", "dashlivesim/dashlib/boxes.py:TRUNBox.__iter__"]}
{"id": "C43", "title": "Chunks are never sent ahead of (wall-clock) production", "statement": "Chunk i of a segment is sent no earlier than the wall-clock time at which its media would have been produced, AST + segment start + i*chunk duration (minus the 0.1 s margin), and no artificial delay is added beyond that, whatever the scheduling of the sending process.", "quantifier": "all clock readings/schedules, all chunk counts", "why_tests_cant": "all schedules", "anchors": ["dashlivesim/mod_wsgi/mod_dashlivesim.py:application", "dashlivesim/dashlib/chunker.py:simulate_continuous_production", "dashlivesim/dashlib/dash_proxy.py:process_media_segment"]}
{"id": "C44", "title": "Bit writer and bit reader are inverse", "statement": "Writing any sequence of (value,width) fields whose widths sum to whole bytes and reading the same widths back yields the values; exp-Golomb codes read back the encoded number.", "quantifier": "all field sequences", "why_tests_cant": "all sequences", "anchors": ["dashlivesim/dashlib/bitwriter.py:Bitwriter.add_bits", "dashlivesim/dashlib/bitreader.py:bitreader.get_bits", "dashlivesim/dashlib/bitreader.py:ue"]}
{"id": "C45", "title": "Byte-range replies contain exactly the requested bytes", "statement": "For a single range request on a payload the reply body is exactly the requested bytes clipped to the payload, the Content-Range header states their true positions, and unsatisfiable or malformed ranges give the full payload without a range header.", "quantifier": "all payloads and range strings", "why_tests_cant": "all strings", "anchors": ["dashlivesim/mod_wsgi/mod_dashlivesim.py:handle_byte_range"]}
{"id": "C46", "title": "HTTP replies do not depend on earlier requests", "statement": "Status, headers and body of a reply depend only on the request, the clock and the content, not on the history of requests handled by the same process.", "quantifier": "all request histories", "why_tests_cant": "all histories", "anchors": ["dashlivesim/mod_wsgi/mod_dashlivesim.py:start_reply", "dashlivesim/mod_wsgi/mod_dashlivesim.py:application"]}
{"id": "C47", "title": "Session limits: one redirect, then bounded service", "statement": "With a session limit, a manifest request without session start is redirected once to a URL carrying the start time, following the redirect is not redirected again, and no content is served later than start + limit or for starts more than 5 s ahead.", "quantifier": "all paths, times", "why_tests_cant": "all URLs and times", "anchors": ["dashlivesim/mod_wsgi/mod_dashlivesim.py:application"]}
{"id": "C48", "title": "URL options: order irrelevant, last wins, stop at content name", "statement": "Options with different keys commute, a repeated scalar option takes the last value, nothing after the first non-option path part is interpreted as an option, and malformed integers are rejected.", "quantifier": "all option lists", "why_tests_cant": "all lists and orders", "anchors": ["dashlivesim/dashlib/configprocessor.py:ConfigProcessor.process_url"]}
{"id": "C49", "title": "BaseURL up/down simulation follows the announced schedule", "statement": "With baseurl_uX_dY (X+Y>0) a segment request is refused with 'server down' exactly when the second in the minute falls in a down interval, and otherwise handled normally; with dX_uY the roles are swapped.", "quantifier": "all X, Y and times", "why_tests_cant": "all values", "anchors": ["dashlivesim/dashlib/dash_proxy.py:get_media"]}
{"id": "C50", "title": "Loss signalling freezes the manifest during down time", "statement": "With segtimelineloss_1 and baseurl_uX_dY the manifest generated in a down interval equals the one generated at the last up second of that interval.", "quantifier": "all X,Y, times", "why_tests_cant": "all times", "anchors": ["dashlivesim/dashlib/mpd_proxy.py:get_mpd"]}
{"id": "C51", "title": "Closed-caption insertion keeps segment structure consistent", "statement": "Inserting captions keeps each sample's original bytes in order, the sample size table matches the new sample data, the mdat size is right, and every caption whose time lies in the segment is inserted exactly once.", "quantifier": "all segments, caption lists", "why_tests_cant": "all lists", "anchors": ["dashlivesim/cc_inserter/cc_inserter.py:CCInsertFilter", "dashlivesim/cc_inserter/cc_inserter.py:generate_data"]}
{"id": "C52", "title": "Language codes round-trip", "statement": "Three-letter lower-case language codes packed into a media header are read back unchanged.", "quantifier": "all codes", "why_tests_cant": "17576 codes x layouts", "anchors": ["dashlivesim/dashlib/boxes.py:MDHDBox", "dashlivesim/dashlib/mp4.py:mdhd_box", "dashlivesim/dashlib/stpp_generator/stpp_creator.py"]}
{"id": "C53", "title": "Box filters terminate", "statement": "Filtering any byte string terminates with output or an error.", "quantifier": "all byte strings", "why_tests_cant": "all inputs", "anchors": ["dashlivesim/dashlib/mp4filter.py:MP4Filter.filter", "dashlivesim/dashlib/mediasegmentfilter.py:MediaSegmentFilter.find_and_process_mdat"]}
{"id": "C54", "title": "Content configuration files round-trip", "statement": "A VoD configuration written by the analyzer is read back with the same loop, duration and media data, and each representation is found under its content type.", "quantifier": "all configurations", "why_tests_cant": "all values", "anchors": ["dashlivesim/dashlib/configprocessor.py:VodConfig.read_config", "dashlivesim/dashlib/configprocessor.py:VodConfig.write_config", "dashlivesim/dashlib/configprocessor.py:VodConfig.content_type_for_rep"]}
{"id": "C55", "title": "Thumbnails follow the availability rules of media segments", "statement": "A thumbnail is served in the same window as the media segment of the same number, from the same loop position, and refused with a proper error response otherwise.", "quantifier": "all configurations, numbers, times", "why_tests_cant": "all values", "anchors": ["dashlivesim/dashlib/dash_proxy.py:process_thumbnail"]}
{"id": "C56", "title": "Manifest window and media window agree for number addressing", "statement": "At any time the latest segment number computed from the manifest by the DASH formula floor((now-AST-PeriodStart)/d)+startNumber-1 is served, the next one is not (zero ato), and all numbers back to now-tsbd are served.", "quantifier": "all configurations and times", "why_tests_cant": "relates manifest and media code for all inputs", "anchors": ["dashlivesim/dashlib/mpd_proxy.py:generate_dynamic_mpd", "dashlivesim/dashlib/mpd_proxy.py:generate_period_data", "dashlivesim/dashlib/dash_proxy.py:process_media_segment"]}
{"id": "C57", "title": "Multiplexed representations are timed like single ones", "statement": "A request for rep A__B is accepted or refused exactly as for A alone and for B alone, and both parts come from the same loop position with the same number.", "quantifier": "all configurations, numbers, times", "why_tests_cant": "all values", "anchors": ["dashlivesim/dashlib/dash_proxy.py:process_media_segment", "dashlivesim/dashlib/configprocessor.py:Config.update_with_reps"]}
{"id": "C58", "title": "The analyzer accepts content only if it can loop without audible drift", "statement": "If analysis succeeds, segment numbers are consecutive, and every segment's end deviates less than 0.1 s from the nominal grid, so that the loop duration differs from the content duration by less than 0.1 s.", "quantifier": "all segment lists", "why_tests_cant": "all lists", "anchors": ["dashlivesim/vodanalyzer/dashanalyzer.py:DashAnalyzer.checkAndUpdateMediaData", "dashlivesim/vodanalyzer/dashanalyzer.py:DashAnalyzer.getSegmentRange"]}
{"id": "C59", "title": "xlink replacement touches exactly the selected periods", "statement": "With xlink_m on a periods_n manifest, the periods replaced by remote links are exactly those whose number is a multiple of n/m (except the first one when ads are inserted) and every other period is delivered unchanged; resolving a link returns the period with that id.", "quantifier": "all manifests with any period ids", "why_tests_cant": "string surgery for all ids", "anchors": ["dashlivesim/dashlib/mpd_proxy.py:generate_response_with_xlink"]}
{"id": "C60", "title": "Errors never leak partial media", "statement": "Whenever a reply has an error status its body is a text message and its type is text/plain; whenever media is delivered the status is 200 or 206.", "quantifier": "all requests", "why_tests_cant": "all requests", "anchors": ["dashlivesim/mod_wsgi/mod_dashlivesim.py:application"]}
{"id": "C61", "title": "Reading an init segment", "statement": "Reading an init segment of one track leaves its bytes alone and gives the track id, handler type, default sample values and (for a version 0 media header) the media time scale written in it; init segments with several track headers are refused.", "quantifier": "all well-formed init segments", "why_tests_cant": "all contents, both header versions", "anchors": ["dashlivesim/dashlib/initsegmentfilter.py:InitFilter"]}
{"id": "C62", "title": "The live manifest is the source manifest with the scheduled periods", "statement": "The generated MPD has exactly one Period per scheduled period, in order, with that period's id, start, duration, start number and presentation time offset in every SegmentTemplate, every other attribute and child of the Period as in the source Period, the root attributes AST, publishTime, timeShiftBufferDepth, suggestedPresentationDelay as configured, and all other children of the MPD unchanged.", "quantifier": "all source trees with one Period, all configurations and times", "why_tests_cant": "any tree, any configuration", "anchors": ["dashlivesim/dashlib/mpdprocessor.py:MpdProcessor.process_mpd_children", "dashlivesim/dashlib/mpdprocessor.py:MpdProcessor.update_periods", "dashlivesim/dashlib/mpd_proxy.py:generate_dynamic_mpd"]}
{"id": "C63", "title": "The BaseURL of the manifest leads back to the same session", "statement": "A segment URL resolved against the BaseURL in the manifest, when taken apart by the server, gives the options and content of the manifest request, hence the same session configuration.", "quantifier": "all option lists, contents, representations and file names, all times", "why_tests_cant": "composition of URL writing and URL parsing for all option lists", "anchors": ["dashlivesim/dashlib/mpdprocessor.py:MpdProcessor.insert_baseurl", "dashlivesim/dashlib/configprocessor.py:ConfigProcessor.process_url"]}
{"id": "C64", "title": "Each of several base URLs leads to the content", "statement": "With several baseurl options the manifest has one BaseURL per option, and media resolved against any of them is served by the session restricted to that option.", "quantifier": "all lists of baseurl options", "why_tests_cant": "composition of URL writing and parsing", "anchors": ["dashlivesim/dashlib/mpdprocessor.py:MpdProcessor.process_mpd_children", "dashlivesim/dashlib/configprocessor.py:ConfigProcessor.process_url"]}
{"id": "C65", "title": "Relative session times become absolute in the Location", "statement": "For a manifest requested with startrel and stoprel the Location names the same URL with the absolute start and stop times; following it at any later time gives the session of the first manifest; media requested from the first manifest belongs to that session too.", "quantifier": "all relative times, option lists and request times", "why_tests_cant": "two requests at arbitrary times", "anchors": ["dashlivesim/dashlib/mpdprocessor.py:MpdProcessor.process_mpd_children", "dashlivesim/dashlib/configprocessor.py:Config.process_start_time"]}
{"id": "C66", "title": "Analyzed content drives the timeline generator correctly", "statement": "For contiguous content that starts at media time 0 and ends exactly with the loop, the timing table and configuration file written by the analyzer, once read by the server, give a timeline generator whose loop is exactly the analyzed segments: the runs follow each other without gap, they fill the loop, and every segment end is less than 0.1 s off the nominal grid.", "quantifier": "all analyzed contents, adaptation sets and server configurations", "why_tests_cant": "two programs meet only through files; all contents", "anchors": ["dashlivesim/vodanalyzer/dashanalyzer.py:DashAnalyzer.checkAndUpdateMediaData", "dashlivesim/dashlib/segtimeline.py:SegmentTimeLineGenerator.__init__", "dashlivesim/dashlib/configprocessor.py:VodConfig.read_config"]}
{"id": "C67", "title": "From the URL of a media segment to the bytes of the reply", "statement": "Whatever was requested before, a request (without Range header or chunked mode) for media segment n of one video or audio representation gets either status 404 or, only inside the availability window of n, status 200 with exactly the stored segment first + (t/d mod N) of that representation (t the media time of n, d the segment duration, N the number of stored segments), sent with number n, decode times moved by whole loops, the last-segment brand exactly for last segments, the splice events of its interval, and an event with the current UTC time exactly in the last second before a simulated outage; a request for two representations gets the joint segment of both, each from its own directory, same position and number. Without options the window is (n+1)d <= now <= (n+2)d + depth and the stored segment is n mod N, n/N loops later.", "quantifier": "all sites, requests, request histories, clock values, options and stored segments", "why_tests_cant": "composition of URL parsing, clock, loop arithmetic, box rewriting and HTTP layer over unbounded inputs", "anchors": ["dashlivesim/mod_wsgi/mod_dashlivesim.py:application", "dashlivesim/dashlib/dash_proxy.py:DashProvider.get_media", "dashlivesim/dashlib/dash_proxy.py:DashProvider.process_media_segment", "dashlivesim/dashlib/dash_proxy.py:DashProvider.filter_media_segment", "dashlivesim/dashlib/configprocessor.py:ConfigProcessor.process_url"]}
{"id": "C68", "title": "Available segments of well-formed content are always delivered", "statement": "A request (without Range header, chunked mode, simulated outages or segment index insertion) for media segment n of one video or audio representation whose stored segment is well-formed, smaller than 2 GiB and leaves room for the shifted decode time and offsets is answered, whatever was requested before: with status 200 exactly when the session is open and n is inside its availability window, and with status 404 otherwise. No such request fails or is answered with an error inside the window. Without options the window is (n+1)d <= now <= (n+2)d + depth.", "quantifier": "all sites, requests, request histories, clock values, options and stored segments", "why_tests_cant": "freedom from run-time errors (byte packing, offset overflow, missing fields) over all box trees and all shifts", "anchors": ["dashlivesim/dashlib/mediasegmentfilter.py:MediaSegmentFilter", "dashlivesim/dashlib/mp4filter.py:MP4Filter.filter", "dashlivesim/mod_wsgi/mod_dashlivesim.py:application", "dashlivesim/dashlib/dash_proxy.py:DashProvider.get_media"]}
{"id": "C69", "title": "A player that follows the live manifest is served", "statement": "A player reads off the live manifest the base URL with its availabilityTimeOffset, the availability start time, time-shift buffer depth and mediaPresentationDuration, a Period's start and, for a representation, the segment template (media, initialization, startNumber, duration, timescale, presentationTimeOffset), fills in the template (ISO/IEC 23009-1) and requests segment n at time t. The reply is 404 unless complete(n) - availabilityTimeOffset <= t <= complete(n) + duration + depth (no upper end if no depth is announced) and the segment ends within the presentation duration, where complete(n) = availability start + Period start + (n - startNumber + 1) * duration; in that window it is 200 with stored segment first + ((Period start / duration + n - startNumber) mod N), renumbered n, and if the stored segments lie on the timeline of the template (with any deviations), so does the one sent, at presentationTimeOffset + (n - startNumber) * duration, the offset being the Period start. The initialization URL gives the stored initialization segment with zero durations from the availability start minus the init offset on.", "quantifier": "all sites, URLs, source manifests, request times, histories, segment numbers and stored segments", "why_tests_cant": "it composes URL parsing, manifest rewriting, the window test and segment rewriting over two requests at unrelated times, for unbounded numbers and contents", "anchors": ["dashlivesim/dashlib/mpdprocessor.py:process", "dashlivesim/dashlib/configprocessor.py:process_url", "dashlivesim/dashlib/dash_proxy.py:process_media_segment", "dashlivesim/mod_wsgi/mod_dashlivesim.py:application"]}
{"id": "C70", "title": "Descriptors in the live manifest", "statement": "Every AdaptationSet of every Period of the live manifest keeps the attributes of its set in the source, and its descriptors are those of the source with these in front and no others: an InbandEventStream for SCTE-35 (value 999) exactly if the source says contentType video and scte35_n with n > 0 was asked for; an InbandEventStream of the DASH event scheme (value 1) exactly if segtimelineloss_1 was asked for and the second of the request is the last one before the server goes down (baseurl_uX_dY); a SupplementalProperty for period continuity exactly if continuous_1 was asked for and the Period is not the first, and its value is the id of the Period before. All other children except SegmentTemplate and ProducerReferenceTime are those of the source.", "quantifier": "all sites, URLs, request times, source manifests with one Period and positions of the Period (time-shift buffer and outage times not negative)", "why_tests_cant": "the golden files fix one manifest per option; the ids chained from Period to Period, the combinations of options and the absence of other descriptors hold over all schedules and trees", "anchors": ["dashlivesim/dashlib/mpdprocessor.py:update_periods", "dashlivesim/dashlib/mpd_proxy.py:get_mpd"]}
{"id": "C71", "title": "Events are announced exactly when they are sent", "statement": "For a session with its live manifest: every event message box the server puts into a media segment of the session belongs to an event stream which the manifest announces (InbandEventStream) in the adaptation sets concerned, SCTE-35 in the video sets, loss events in all; and an announced stream does carry events: the segment before a splice has the splice, the segments fetched in the last second before an outage have the loss event.", "quantifier": "all sites, URLs, source manifests, histories, request times, segment numbers and stored segments without event messages", "why_tests_cant": "it relates two requests at different times that two modules answer from different inputs (manifest tree, asset description), over all options and contents", "anchors": ["dashlivesim/dashlib/dash_proxy.py:process_media_segment", "dashlivesim/dashlib/mediasegmentfilter.py:create_scte35box", "dashlivesim/dashlib/mpdprocessor.py:update_periods", "dashlivesim/dashlib/mpd_proxy.py:get_mpd"]}
{"id": "C72", "title": "A player that follows a SegmentTimeline manifest is served", "statement": "A player that fetched a live manifest with a SegmentTimeline (segtimeline_1 or segtimelinenr_1, one period or periods_n) and requests any segment listed for a video or audio Representation, by filling in the template of the Period and prefixing the BaseURL, at any time from then on until the end of the segment (its time and duration minus the presentation time offset, counted from the start of its Period) leaves the time shift buffer, gets it with status 200. The body is the stored segment which the table of the content puts at that place in the loop, with the decode times moved to the listed time.", "quantifier": "all sites, URLs, options, histories, fetch and request times, source manifests with one Period, content tables on the grid, list positions and stored segments", "why_tests_cant": "it relates two HTTP requests at different times answered by different modules, through URL parsing, the timeline generator, the schedule of periods, number recovery from times and the box rewriter, over all tables and times", "anchors": ["dashlivesim/dashlib/mpdprocessor.py:update_periods", "dashlivesim/dashlib/segtimeline.py:create_segtimeline", "dashlivesim/dashlib/mpd_proxy.py:generate_period_data", "dashlivesim/dashlib/dash_proxy.py:process_media_segment", "dashlivesim/dashlib/configprocessor.py:process_url"]}
{"id": "C73", "title": "The segment lists of consecutive Periods", "statement": "In a SegmentTimeline manifest with several Periods the list of each Period holds the complete segments that end in that Period (after its start, not after the start of the next one, and not before the time shift buffer begins): every such segment is listed there, every listed segment ends in its Period, and no segment is listed in two Periods.", "quantifier": "all sessions with a SegmentTimeline and one or several periods per hour, request times, source manifests with one Period, content tables and representations", "why_tests_cant": "the boundary of two Periods meets segment and run boundaries of the table in different ways over time, for all tables and period counts; golden files show one moment", "anchors": ["dashlivesim/dashlib/mpdprocessor.py:update_periods", "dashlivesim/dashlib/segtimeline.py:create_segtimeline", "dashlivesim/dashlib/mpd_proxy.py:generate_period_data"]}
{"id": "C74", "title": "Two replies to one media URL are the same", "statement": "The URL of a segment, an init segment or a thumbnail of a session whose times do not move with the request (no startrel, stoprel, modulo, tfdt or cont option) names one content: whenever it is fetched, by whomever, and whatever was requested before, all successful replies have the same status, headers, cookies, chunks and bytes, so that a cache in front of the server may keep them.", "quantifier": "all sites, URLs of media without moving options, byte ranges, pairs of request times, session identifiers and histories of requests before them", "why_tests_cant": "the claim compares replies at two arbitrary moments under every combination of options; tests request one segment at one moment, and a difference that shows in one second of a minute is not met by chance", "anchors": ["dashlivesim/dashlib/dash_proxy.py:process_media_segment", "dashlivesim/dashlib/mediasegmentfilter.py:MediaSegmentFilter", "dashlivesim/dashlib/configprocessor.py:ConfigProcessor.process_url", "dashlivesim/mod_wsgi/mod_dashlivesim.py:application"]}
{"id": "C75", "title": "Analyzed content is served in step", "statement": "Content that the analyzer accepted and whose configuration the server has is served in step: segments with the same number of any two of its representations, however long the stream has been running, are both available, last until the same moment of the presentation to within 0.2 s, and each lies where the grid of the average segment duration says to within 0.1 s; of contiguous content, each segment begins where the one before it ended, to within 0.1 s at the point where the content starts over and exactly elsewhere.", "quantifier": "all sites with analyzed audio or video of one fragment per segment, representations, segment numbers, moments, histories of requests before them", "why_tests_cant": "drift between representations shows only after many loops of the content, and the analyzer's tolerances combine with the time arithmetic of the server in ways that depend on all segment durations; tests check one file set at one moment", "anchors": ["dashlivesim/vodanalyzer/dashanalyzer.py:DashAnalyzer", "dashlivesim/dashlib/configprocessor.py:VodConfig", "dashlivesim/dashlib/dash_proxy.py:DashProvider.process_media_segment", "dashlivesim/dashlib/mediasegmentfilter.py:MediaSegmentFilter.process_tfdt"]}
{"id": "C76", "title": "The analyzer finds the files that the VoD manifest names", "statement": "The analysis of a VoD manifest is the analysis of the files it names: for every representation of every adaptation set the init segment and the media segments are those that the DASH templates give ($RepresentationID$, $Bandwidth$, $Number$), attributes that are absent have their DASH defaults, and other files in the directories do not matter; the content that is then served comes from exactly these files.", "quantifier": "all manifests with SegmentTemplate, templates, representation ids, directories and their other contents", "why_tests_cant": "the templates, names and contents of directories are unbounded, and text replacement and pattern matching have corner cases; the tests run the analyzer on one or two well-formed directories", "anchors": ["dashlivesim/vodanalyzer/mpdprocessor.py:Representation.get_media_path", "dashlivesim/vodanalyzer/mpdprocessor.py:AdaptationSet.parse", "dashlivesim/vodanalyzer/dashanalyzer.py:DashAnalyzer.getSegmentRange", "dashlivesim/vodanalyzer/dashanalyzer.py:DashAnalyzer.initMedia"]}
{"id": "C77", "title": "Boxes that are written are complete boxes", "statement": "Whatever boxes.py writes is a sequence of complete ISO boxes: the size in the header of every box, at every level, is the number of bytes written for it, so that a reader finds the start of the next one. This holds for all box classes and for the init segments, fragments and media data put together from them; the data offset of a run is where the media data start, and the offset box of an encrypted fragment points to the first initialization vector. Init segments of all codecs are written if the numbers fit their fields.", "quantifier": "all box classes with all field values, all nestings of boxes, all codecs, sample lists and encryption data", "why_tests_cant": "size() and the iterator are written separately for each of some forty classes and nest without bound; the tests write a handful of boxes with fixed contents, none of them with encryption, HEVC or AC-3", "anchors": ["dashlivesim/dashlib/boxes.py:Box.serialize", "dashlivesim/dashlib/boxes.py:BoxContainer.size", "dashlivesim/dashlib/boxes.py:SENCBox", "dashlivesim/dashlib/boxes.py:create_moof", "dashlivesim/dashlib/boxes.py:create_moov_h264", "dashlivesim/dashlib/boxes.py:HVCCBox"]}
{"id": "C78", "title": "Init segments that boxes.py writes are what the server expects", "statement": "For every codec that boxes.py can write an init segment for (H.264, AAC, AC-3 and E-AC-3, WebVTT), the init segment filter of the server accepts the file, leaves it as it is, and finds the track id, time scale, handler type and sample defaults it was made with; and what the server sends for live is byte for byte the init segment that would have been written with no duration.", "quantifier": "all codecs and codec parameters, all track ids, time scales and durations that fit their fields", "why_tests_cant": "writer and reader are two independent implementations of the same format with no test that connects them; agreement of every field position over all parameters needs all inputs", "anchors": ["dashlivesim/dashlib/boxes.py:create_moov_h264", "dashlivesim/dashlib/boxes.py:create_moov_mp4a", "dashlivesim/dashlib/initsegmentfilter.py:InitFilter", "dashlivesim/dashlib/initsegmentfilter.py:InitLiveFilter"]}
{"id": "C79", "title": "Sample tables are looked up as the format says", "statement": "The readers of the sample tables in mp4.py give for every sample of a track what the track has: its decoding time and duration (stts), its composition time offset, also a negative one (ctts), whether it is a sync sample (stss), the chunk it is in and its place there (stsc), its size (stsz) and where in the file it starts (stco, co64). A sample that the track does not have is given no time.", "quantifier": "all tracks with any chunks and sample sizes, all ways to write their tables as runs (also empty runs), all samples, wherever the boxes are in the file", "why_tests_cant": "the lookups are three hand-written binary searches over sums of runs; whether the right run is found depends on all runs before it, and an off-by-one shows only at the borders of runs and chunks; no test reads these tables", "anchors": ["dashlivesim/dashlib/mp4.py:stts_box.sample_time_and_duration", "dashlivesim/dashlib/mp4.py:ctts_box.sample_offset", "dashlivesim/dashlib/mp4.py:stsc_box.chunk_and_index", "dashlivesim/dashlib/mp4.py:stsz_box.sample_size_and_offset", "dashlivesim/dashlib/mp4.py:stco_box.chunk_offset"]}
{"id": "C80", "title": "Boxes are read back with the values they were written with", "statement": "A box that boxes.py writes, at any place of a file, is read by the class for that box in mp4.py with the values that it was made with (the handler name with its final 0): movie, track and handler headers, track defaults, fragment headers, sample entries, decoder configurations, auxiliary information of protected samples, segment index, brands and cue texts. Values are those that the fields of the format can hold.", "quantifier": "all values of the fields, all lists (samples, groups, references, brands), all files around the box", "why_tests_cant": "reader and writer are separate hand-written code with field positions, widths and signs of their own; a disagreement shows only for some values (a width of 32768, a sample rate of 96000, a configuration of 105 bytes), and no test reads back what boxes.py writes", "anchors": ["dashlivesim/dashlib/boxes.py:Box.serialize", "dashlivesim/dashlib/mp4.py:tkhd_box", "dashlivesim/dashlib/mp4.py:hdlr_box", "dashlivesim/dashlib/mp4.py:avcx_box", "dashlivesim/dashlib/mp4.py:mp4a_box", "dashlivesim/dashlib/mp4.py:avcC_box", "dashlivesim/dashlib/mp4.py:esds_box", "dashlivesim/dashlib/mp4.py:saiz_box", "dashlivesim/dashlib/mp4.py:sgpd_box", "dashlivesim/dashlib/mp4.py:senc_box", "dashlivesim/dashlib/mp4.py:sidx_box"]}
{"id": "C81", "title": "A manifest request whose options go together is answered", "statement": "A request for a live manifest that passes the option checks of get_mpd is answered with a manifest, at any time and for any stored manifest that has a Period (and profiles, if an option adds one): no combination of options makes the request fail half-way.", "quantifier": "all sessions, all combinations of options, all stored manifests, all times", "why_tests_cant": "the options are handled in five functions that each assume something about the others (a division by the number of links, a BaseURL for the callbacks, both session times for the Location); a failure needs two options that no test combines", "anchors": ["dashlivesim/dashlib/mpd_proxy.py:get_mpd", "dashlivesim/dashlib/mpd_proxy.py:generate_dynamic_mpd", "dashlivesim/dashlib/mpd_proxy.py:generate_period_data", "dashlivesim/dashlib/mpdprocessor.py:MpdProcessor.process_mpd_children", "dashlivesim/dashlib/mpdprocessor.py:MpdProcessor.update_periods"]}
{"id": "C82", "title": "The parser finds the boxes of a file", "statement": "For a file that is a sequence of ISO base media boxes, mp4.mp4 gives the tree of its boxes with their types, sizes and positions; find and find_all give the boxes that a path leads to, all of them and in the order of the file (find the first); get_video_info, get_audio_info and get_timed_text_info give the track number and time scale of the first track of their kind, and (None, 0) when there is none.", "quantifier": "all files, all paths of box types", "why_tests_cant": "the parser is only run on the stored assets of the tests, which have no empty containers, no 64-bit sizes, no metadata and no AC-3 track; the tree has to be right for every nesting of boxes", "anchors": ["dashlivesim/dashlib/mp4.py:box.find", "dashlivesim/dashlib/mp4.py:box.find_all", "dashlivesim/dashlib/mp4.py:box.parse_children", "dashlivesim/dashlib/mp4.py:mp4"]}
{"id": "C83", "title": "Runs and random access tables say when media is shown", "statement": "trun_box.get_durations gives the total duration of the samples of a run and the exact range of times in which they are shown (the earliest start and the latest end, relative to the decode time); tfra_box.entry gives the fields of every random access point, the fragments are the groups of consecutive points in one moof, time_for_fragment, moof_offset_for_fragment and fragment_count count them from 1 (None for one that is not there), time_for_moof_offset gives the first time of a fragment, moof_offset_for_time the fragment of the last point that is not after the time, end_time the last time plus the distance of the last two points; mfro_box gives the size of the tables.", "quantifier": "all encoded runs with any set of optional fields and any default duration; all encoded tables with any sizes of fields and any number of points; all seek times", "why_tests_cant": "no test calls these methods; there are sixty-four shapes of runs, sixty-four sizes of table rows in two versions, and the search has to be right for every table and time", "anchors": ["dashlivesim/dashlib/mp4.py:trun_box.get_durations", "dashlivesim/dashlib/mp4.py:tfra_box.entry", "dashlivesim/dashlib/mp4.py:tfra_box.parse_random_access_table", "dashlivesim/dashlib/mp4.py:tfra_box.moof_offset_for_time", "dashlivesim/dashlib/mp4.py:tfra_box.end_time", "dashlivesim/dashlib/mp4.py:mfro_box"]}
{"id": "C84", "title": "A player gets the stored samples, without gap, whole or in chunks", "statement": "The reply to a request for media segment n of one video or audio representation, if not 404, is a fragment with number n that says exactly the samples of the stored segment of the loop: same data, durations, flags and composition offsets in the same order, decode times moved by the whole loops that went by, whatever boxes are taken out, put in or widened. With option chunkdur the body is a list of fragments, each readable on its own, with these samples cut at the multiples of the chunk duration. If the stored segments follow each other without gap and last as long as the loop, then the segments on air of a plain URL do so for ever, also where the loop starts over.", "quantifier": "all sites, histories, requests, numbers and times; all stored segments with one fragment of one track, any optional fields in tfhd and trun, any other boxes around; all chunk durations", "why_tests_cant": "the tests look at the bytes of a few fields of a few segments; that a reader of the reply finds the same samples depends on every offset and size in it, for every number of loops", "anchors": ["dashlivesim/dashlib/dash_proxy.py:process_media_segment", "dashlivesim/dashlib/mediasegmentfilter.py:MediaSegmentFilter", "dashlivesim/dashlib/chunker.py:chunk", "dashlivesim/mod_wsgi/mod_dashlivesim.py:application"]}
{"id": "C85", "title": "Generated subtitles tell the time, stored and live", "statement": "The subtitle tool writes for each segment a document whose cues follow each other without gap or overlap, over all segments at each instant exactly one cue; begin and end attributes, paragraph name and visible text of a cue all give its own time, and the document names the language asked for. Sent by a session that is off seconds ahead, the document is the same with every cue moved by off seconds and the UTC time of its start as visible text, and nothing else changed.", "quantifier": "all languages, segment durations, cue lengths, start times, time offsets and segment numbers", "why_tests_cant": "the tool has no tests; the test of the time shift has one document with two cues, and whether a text replacement hits exactly the times depends on every byte of the document", "anchors": ["dashlivesim/dashlib/stpp_generator/make_stpp_segments.py:create_segments", "dashlivesim/dashlib/stpp_generator/make_stpp_segments.py:create_time_string", "dashlivesim/dashlib/ttml_timing_offset.py:adjust_ttml_content"]}
{"id": "C86", "title": "Protection headers, HEVC records and adjustments are read as stored", "statement": "For a pssh box of any version, an hvcC box and a tfma box laid out as the formats define, wherever they stand in the file, the classes of the box library give exactly the stored values: system, key ids and data size; all bit fields and parameter sets; number, durations, signed times and rates. The position that is kept for the content of a pssh box is the position of the data of the system.", "quantifier": "all field values in their ranges, all numbers of key ids, arrays, units and entries, all bytes before and after the box", "why_tests_cant": "no test file has a pssh box with key ids, an hvcC with several arrays or a tfma box; a wrong shift or width shows only for some values", "anchors": ["dashlivesim/dashlib/mp4.py:pssh_box", "dashlivesim/dashlib/mp4.py:hvcC_box", "dashlivesim/dashlib/mp4.py:tfma_box"]}
{"id": "C87", "title": "The table checker names exactly the gaps and overlaps", "statement": "For a file of whole entries the checker of timing tables prints a message for exactly those neighbouring segments of the table where the later one does not start at the end of the earlier one, in order and with these two times, and so nothing exactly if the segments follow each other without gap or overlap. A table that the analyzer wrote for contiguous content is never complained about. A file that ends within an entry gives the messages of the entries before it and then an exception.", "quantifier": "all files of bytes, all analyzed contents with contiguous segments", "why_tests_cant": "the checker has no tests; that comparing the entries is enough for all the segments they stand for depends on every repeat count", "anchors": ["dashlivesim/vodanalyzer/parse_dat_file.py:parse_dat_file", "dashlivesim/vodanalyzer/dashanalyzer.py:DashAnalyzer.checkAndUpdateMediaData"]}
{"id": "C88", "title": "Bootstrap boxes and their tables are read as stored", "statement": "For abst, asrt, afrt and afra boxes laid out as the format defines, wherever they stand in the file, the classes of the box library give exactly the stored values: all fields and texts, all servers and qualities, every run table inside the bootstrap box, discontinuity indicators, and local and global random access entries in both widths of ids and of offsets.", "quantifier": "all field values in their ranges, all texts without zero bytes, all numbers of servers, qualities, tables, runs and entries, all bytes before and after the box", "why_tests_cant": "no test file has any of these boxes; the mistakes show only if numbers of servers and qualities, or widths of ids and offsets, differ", "anchors": ["dashlivesim/dashlib/mp4.py:abst_box", "dashlivesim/dashlib/mp4.py:asrt_box", "dashlivesim/dashlib/mp4.py:afrt_box", "dashlivesim/dashlib/mp4.py:afra_box"]}
{"id": "C89", "title": "The encryption of a sample is that of its group, else of its track", "statement": "For a fragment whose boxes describe groups of samples, the class for encryption boxes says for each sample the encryption flag, vector size and key id of the group the sample is in, those of the track for group 0 and for samples after the last group, and that samples after the last one are in the clear.", "quantifier": "all fragments, all numbers and sizes of groups, all numbers of samples, all sample indices", "why_tests_cant": "nothing calls the method and no test file has such boxes; which sample is in which group depends on all the counts before it", "anchors": ["dashlivesim/dashlib/mp4.py:genc_box", "dashlivesim/dashlib/mp4.py:tenc_box"]}
{"id": "C90", "title": "Boxes with extended types and fragment times are read as stored", "statement": "For a uuid box with a version, wherever it stands in the file, the box library gives the stored extended type, version and flags, and the classes for times of fragments, given content and version of such a box, give exactly the stored time and duration, or all the stored times and durations, in both widths.", "quantifier": "all types, versions, flags, times and durations, all numbers of entries, all bytes before and after the box", "why_tests_cant": "no test file has such boxes, and nothing in the tests makes objects of these classes", "anchors": ["dashlivesim/dashlib/mp4.py:uuid_box", "dashlivesim/dashlib/mp4.py:full_box", "dashlivesim/dashlib/mp4.py:tfxd_box", "dashlivesim/dashlib/mp4.py:tfrf_box"]}
{"id": "C91", "title": "Paths with attribute criteria find the boxes they describe", "statement": "Boxes can be looked up by paths whose parts are types, or types with the value an attribute must have, as in trak.tkhd[track_id=2]. Asking for all of them gives exactly the boxes at the end of the path, and asking for one gives one of these boxes, and nothing only if there is none.", "quantifier": "all trees of boxes and all paths of types and criteria, where the boxes of the type asked for have the attribute", "why_tests_cant": "the tests look for boxes by types only, in files with one track", "anchors": ["dashlivesim/dashlib/mp4.py:match_attribute", "dashlivesim/dashlib/mp4.py:match_box", "dashlivesim/dashlib/mp4.py:box.find"]}
