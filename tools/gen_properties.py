#!/usr/bin/env python3
"""Source of /verif/properties.jsonl (run to regenerate)."""
import json, os
P = []
def p(id, title, statement, quantifier, why, anchors):
    P.append(dict(id=id, title=title, statement=statement, quantifier=quantifier,
                  why_tests_cant=why, anchors=anchors))
D = "dashlivesim/dashlib/"
p("C01", "Media segment availability window is exact",
  "With a finite availability time offset and no end limits, a request for media segment number n at time now returns the segment exactly when n >= startNumber and AST+(n-startNumber+1)*d-ato <= now <= AST+(n-startNumber+2)*d+tsbd and now is at or after the first-segment availability time AST+d-ato; in every other case it returns an error response and no media.",
  "every configuration (AST, startNumber, segment duration, ato, time-shift buffer depth), every segment number and every real request time",
  "the window boundaries depend on five unbounded parameters; tests sample a handful of (time, number) pairs and cannot show that no other pair is wrongly accepted or refused",
  [D+"dash_proxy.py:get_media", D+"dash_proxy.py:process_media_segment"])
p("C02", "Availability of a segment never flaps",
  "For a fixed URL without sliding start time, the set of request times at which a given segment is served is an interval: once it has been served and later refused it is never served again, and it is never refused between two times at which it is served.",
  "all configurations with fixed AST, all segment numbers, all triples of request times",
  "it is a statement about all triples of times",
  [D+"dash_proxy.py:get_media", D+"dash_proxy.py:process_media_segment"])
p("C03", "Infinite availability time offset disables timing checks only",
  "With ato_inf every segment number >= startNumber (and within any configured end) is served at every time from AST on, and nothing is served before AST or below startNumber.",
  "all configurations with infinite offset, all segment numbers and times",
  "unbounded numbers and times",
  [D+"dash_proxy.py:get_media", D+"dash_proxy.py:process_media_segment", D+"configprocessor.py:ConfigProcessor.process_url"])
p("C04", "startNumber only relabels segments",
  "Serving segment n+k under snr_(s+k) gives the same decision, the same VoD source segment, the same time offset and the same media time as serving segment n under snr_s at the same moment; only the requested number differs.",
  "all s, k with s, s+k >= 0, all segment numbers, times and configurations",
  "equivalence of two runs for all pairs of start numbers",
  [D+"dash_proxy.py:process_media_segment", D+"configprocessor.py:ConfigProcessor.interpret_start_nr"])
p("C05", "start/stop sessions serve exactly the numbered segments of the interval",
  "With start_a and stop_b the AST is the largest multiple of d not above a, the stop time is the smallest multiple of d not below b (for segment durations of 1..1000 s), the advertised media presentation duration is their difference, and a segment number is ever served only if it is one of the (stop-start)/d consecutive numbers from the start number; and those remain available for ever once they have become available.",
  "all integers a <= b, all segment durations 1..1000, all numbers and times",
  "rounding and off-by-one behaviour over unbounded integers",
  [D+"configprocessor.py:Config.process_start_time", D+"configprocessor.py:Config.stop_number", D+"dash_proxy.py:process_media_segment"])
p("C06", "Duration-limited sessions: nothing after the last segment, lmsg exactly on it",
  "With start_a and dur_x1/.../dur_xk the segments served are exactly among numbers 0..L where (L+1)*d is the total quantized duration, no number above L is ever served, and the 'lmsg' last-segment brand is put in segment L and in no other; with a non-default start number (snr_s) the same holds for numbers shifted by s.",
  "all start times, duration lists, start numbers and request times",
  "must hold for every duration list and start number",
  [D+"configprocessor.py:Config.process_start_time", D+"dash_proxy.py:process_media_segment", D+"mediasegmentfilter.py:MediaSegmentFilter.process_styp"])
p("C07", "No media after availabilityEndTime plus 60 s",
  "If the configuration has an availabilityEndTime, every media or thumbnail request whose whole-second time exceeds it by more than 60 s is answered with an error.",
  "all configurations with end time and all times", "unbounded times and all option combinations",
  [D+"dash_proxy.py:get_media"])
p("C08", "Init segments are available exactly from AST minus the init offset",
  "An init segment request succeeds exactly when the whole-second request time is >= AST - init offset, and the set of success times is upward closed.",
  "all configurations and times", "unbounded times",
  [D+"dash_proxy.py:get_init"])
p("C09", "Live-to-VoD loop mapping is a bijection per loop and always in range",
  "The VoD segment file chosen for live segment n lies in [first, first+N), consecutive live segments use cyclically consecutive files, the mapping is periodic with period N, every file is used exactly once per loop, and the time offset added equals (number of completed loops) * N*d.",
  "all segment numbers, loop lengths N >= 1, durations d >= 1 and first-segment numbers",
  "unbounded numbers, any loop length",
  [D+"dash_proxy.py:process_media_segment"])
p("C10", "The media timeline is continuous across loop wraps",
  "If the VoD segments have contiguous decode times covering exactly one loop, then for every n the decode time in served segment n+1 equals the decode time in served segment n plus the duration of the VoD segment behind n - including at every wrap.",
  "all VoD timelines whose total duration equals the loop duration, all n", "infinitely many n, all content",
  [D+"dash_proxy.py:process_media_segment", D+"mediasegmentfilter.py:MediaSegmentFilter.process_tfdt"])
p("C11", "Media sequence number equals the requested segment number",
  "Every served non-multiplexed segment carries in its movie fragment header exactly the requested number, for numbers representable in 32 bits; larger numbers yield an error, never a silently wrapped value.",
  "all segments files with well-formed boxes, all numbers", "all inputs",
  [D+"mediasegmentfilter.py:MediaSegmentFilter.process_mfhd", D+"mp4filter.py:MP4Filter.filter"])
p("C12", "Widening the decode time keeps all byte pointers valid",
  "When a segment's decode time no longer fits 32 bits the box is widened to 64 bits, and afterwards all enclosing box sizes are right and the sample-data pointer (trun data offset) and auxiliary-info pointers (saio) still designate the same bytes as before; when it fits, or the box already is 64-bit, no size changes.",
  "all well-formed single-track segments, all offsets and timescales", "the 2^32 threshold and arbitrary box contents",
  [D+"mediasegmentfilter.py:MediaSegmentFilter.process_tfdt", D+"mediasegmentfilter.py:MediaSegmentFilter.process_trun", D+"mediasegmentfilter.py:MediaSegmentFilter.process_saio", D+"mp4filter.py:MP4Filter.filter_box"])
p("C13", "Rewritten segments are well-formed box sequences",
  "If the VoD segment parses as a sequence of boxes whose declared sizes tile the file, then the served segment parses the same way at top level and inside moof and traf.",
  "all well-formed box trees and all filter parameters", "arbitrary box trees",
  [D+"mp4filter.py:MP4Filter.filter", D+"mp4filter.py:MP4Filter.filter_box", D+"mediasegmentfilter.py:MediaSegmentFilter"])
p("C14", "Filtering changes only the documented fields",
  "Apart from styp brands, dropped sidx, mfhd number, tfdt value/version, trun data offset and saio offsets, every box of a served (non-TTML) segment is byte-identical to the VoD segment, in the same order; in particular all media data are unchanged.",
  "all well-formed segments and parameters", "arbitrary content",
  [D+"mp4filter.py:MP4Filter.filter_box", D+"mediasegmentfilter.py:MediaSegmentFilter"])
p("C15", "lmsg brand handling is exact and idempotent",
  "After filtering, the styp brand list is the original list with every 'lmsg' removed, followed by one 'lmsg' exactly if the segment is a last one; the box size matches.",
  "all brand lists", "arbitrary lists",
  [D+"mediasegmentfilter.py:MediaSegmentFilter.process_styp"])
p("C16", "tfdt_32 sessions keep decode times in 32 bits",
  "With the tfdt_32 option AST is the latest multiple of 3 h not after now, AET is 3 h later, and every segment that is served has start time * timescale < 2^32 whenever 3 h (+ ato) of ticks fit in 32 bits.",
  "all times, timescales, segments", "unbounded times",
  [D+"configprocessor.py:Config.update_for_tfdt32", D+"dash_proxy.py:process_media_segment"])
p("C17", "Continuously updated sessions always have one available segment",
  "With cont_1 the AST is a multiple of d with AST+d <= now < AST+2d, so the first segment of the session is served at every request time and the second is not (with zero ato).",
  "all times and durations", "unbounded times",
  [D+"configprocessor.py:Config.update_for_cont_update", D+"dash_proxy.py:process_media_segment"])
p("C18", "Announced end time follows the duration list in order",
  "For start_a/dur_x1/.../dur_xk with non-negative durations the availabilityEndTime announced at time now is the first cumulative end time that is still more than or exactly 2*minimumUpdatePeriod ahead of now, or the last one if there is none; it never decreases as time passes; and mediaPresentationDuration is the matching cumulative duration.",
  "all start times, non-empty duration lists, update periods and times", "any list and any time",
  [D+"configprocessor.py:Config.update_with_aet", D+"configprocessor.py:Config.process_start_time"])
p("C19", "modulo_x follows the documented table",
  "For modulo_x (x dividing 60, x>=1) AST, mediaPresentationDuration, minimumUpdatePeriod and AET at every second follow the documented schedule: 20/40/60/80 % of the interval in [0,10),[10,30),[30,50),[50,90) % and the next interval's AST with 20 % in [90,100) %; announced end times never decrease within an interval.",
  "all x and all times", "all seconds of all intervals",
  [D+"moduloperiod.py:ModuloPeriod"])
p("C20", "modulo_x sessions end where the MPD says they end",
  "In a modulo_x session no segment beyond the announced mediaPresentationDuration is served and the last one carries lmsg.",
  "all x, times and segment numbers", "all times",
  [D+"moduloperiod.py:ModuloPeriod.calc_last_segment_number", D+"configprocessor.py:Config.update_with_modulo_period", D+"dash_proxy.py:process_media_segment"])
p("C21", "timeoffset: manifest numbering and media timing agree",
  "With timeoffset_t (and AST, t multiples of d, startNumber >= 0) the segment the manifest names first (startNumber) is the first one served, its media time equals the announced presentationTimeOffset, and each further number is one segment duration later.",
  "all AST, t, d, start numbers", "all parameter values",
  [D+"configprocessor.py:Config.adjusted_start_number", D+"configprocessor.py:Config.adjusted_pto", D+"mpd_proxy.py:generate_dynamic_mpd", D+"dash_proxy.py:process_media_segment"])
p("C22", "Manifest turns static exactly after the stop time",
  "The manifest type is 'static' exactly when a stop time is configured and now is later than it, static manifests carry no minimumUpdatePeriod, and the change is permanent.",
  "all configurations and times", "all times",
  [D+"mpd_proxy.py:generate_dynamic_mpd", D+"mpdprocessor.py:MpdProcessor.process_mpd"])
p("C23", "Multi-period manifests tile the time-shift window",
  "With periods_n (n>0) the periods are consecutive, each starts where the previous ends, the first starts no later than now-tsbd-d, the last starts no later than now + half a period and ends after now + half a period - 1, ids are distinct, and every period but the last gets the nominal duration unless terminated early.",
  "all n in the allowed set, all times, buffer depths, durations", "all times",
  [D+"mpd_proxy.py:generate_period_data"])
p("C24", "Multi-period start numbers address the right media",
  "If the period duration is a multiple of d and AST is the epoch, the segment number announced for a period denotes the segment whose media time equals the period start and its presentationTimeOffset, hence numbering is continuous over period boundaries; otherwise the number is the one of the segment containing the period start.",
  "all periods, durations, times", "all values",
  [D+"mpd_proxy.py:generate_period_data", D+"dash_proxy.py:process_media_segment"])
p("C25", "Period options reject non-divisors and select every k-th period",
  "Unsupported period counts raise an error; early-termination, callback and xlink counts that do not divide the period count raise an error; otherwise precisely the periods whose number is a multiple of the quotient are selected, and a fixed period is selected or not independent of when the manifest is fetched.",
  "all option values and times", "all values",
  [D+"mpd_proxy.py:get_mpd", D+"mpd_proxy.py:generate_period_data", D+"mpd_proxy.py:generate_response_with_xlink"])
p("C26", "SegmentTimeline lists exactly the complete segments of the window",
  "For content whose timing table is contiguous and fills the loop exactly, the generated SegmentTimeline expands to a gap-free list of consecutive VoD-loop segments, beginning with the segment that contains the window start and ending with the last segment that ends at or before the window end, with correct start times, durations and first number.",
  "all timing tables (any run structure), all windows, any number of loop wraps", "any table, any window",
  [D+"segtimeline.py:SegmentTimeLineGenerator.create_segtimeline"])
p("C27", "Every segment advertised in a SegmentTimeline is served",
  "At the moment a SegmentTimeline manifest is generated, every segment it lists - addressed by time or by number - is accepted by the media server at that moment (drift below 0.1 s, window inside tsbd).",
  "all tables within the drift bound, all times", "relates two code paths for all inputs",
  [D+"segtimeline.py:SegmentTimeLineGenerator", D+"dash_proxy.py:process_media_segment", D+"mpdprocessor.py:MpdProcessor.update_periods"])
p("C28", "Successive SegmentTimelines are consistent",
  "For two manifests generated at times t1 <= t2, segments listed in both have identical start time, duration and number; the later list starts no earlier and ends no earlier.",
  "all pairs of times", "pairs of runs",
  [D+"segtimeline.py:SegmentTimeLineGenerator.create_segtimeline"])
p("C29", "Time-addressed and number-addressed requests name the same segment",
  "A request t<T> with T within half a segment duration (exclusive) of the nominal start of segment k resolves to number k.",
  "all timescales, durations, T", "all values including float rounding",
  [D+"dash_proxy.py:process_media_segment"])
p("C30", "Timing-table files round-trip",
  "The run-length timing table written by the analyzer, when read back, expands to exactly the analyzed list of (number, start, duration), for contiguous segments; and values outside the field widths are refused rather than truncated.",
  "all segment lists", "all lists",
  ["dashlivesim/vodanalyzer/dashanalyzer.py:DashAnalyzer.checkAndUpdateMediaData", D+"segtimeline.py:SegmentTimeLineGenerator.__init__", D+"configprocessor.py:SEGTIMEFORMAT"])
p("C31", "ISO durations round-trip",
  "Writing a non-negative integer number of seconds below one day as an ISO-8601 duration and parsing it back gives the same number; distinct inputs give distinct texts.",
  "all second counts", "all integers",
  [D+"timeformatconversions.py:seconds_to_iso_duration", D+"timeformatconversions.py:iso_duration_to_seconds"])
p("C32", "UTC timestamps are calendar-correct",
  "The timestamp text written for t seconds after the epoch denotes exactly that instant in the proleptic Gregorian calendar (year, month, day in range, leap years respected) and is strictly monotone as an instant; distinct instants give distinct texts.",
  "all t with years up to 9999", "all instants",
  [D+"timeformatconversions.py:make_timestamp"])
p("C33", "Subtitle times shift by exactly the loop offset",
  "Every begin/end time hh:mm:ss in a subtitle document is replaced by the text of that time plus the offset, with the rest of the document unchanged; a zero offset leaves canonical times unchanged; shifting twice equals shifting by the sum (while hours stay two digits).",
  "all documents, offsets", "all byte strings",
  [D+"ttml_timing_offset.py:adjust_ttml_content"])
p("C34", "SCTE-35 splice messages: once per ad, ahead of time",
  "For scte35_n, each splice point of the schedule is announced in at least one segment beginning no later than 6 s and no earlier than segment duration + 8 s before the splice; the time delta is non-negative, the event id is a function of the splice time only, and segments not covering a pre-warning instant carry no message.",
  "all segment durations and numbers", "all segments over unbounded time",
  [D+"mediasegmentfilter.py:MediaSegmentFilter.create_scte35box", D+"scte35.py:Scte35Emsg"])
p("C35", "emsg boxes are self-consistent and parse back",
  "For ASCII scheme, value and data the emsg box size equals its length and parsing it recovers all fields.",
  "all strings and 32-bit fields", "all strings",
  [D+"emsg.py:Emsg.get_box", D+"mp4.py:emsg_box"])
p("C36", "Generated sidx boxes describe the segment",
  "The optional sidx is 52 bytes, is inserted directly before the moof, gives the served decode time, the fragment's total sample duration, and a referenced size equal to moof plus mdat, i.e. exactly the rest of a single-fragment segment.",
  "all segments", "all contents",
  [D+"mediasegmentfilter.py:MediaSegmentFilter.create_sidx", D+"mediasegmentfilter.py:MediaSegmentFilter.finalize"])
p("C37", "Live init segments differ only in zeroed durations",
  "The live init segment has the same length as the VoD one, has zero duration in movie, track and media headers, equals it everywhere else, and filtering again changes nothing.",
  "all well-formed init segments (either header version)", "all contents",
  [D+"initsegmentfilter.py:InitLiveFilter"])
p("C38", "Multiplexed init segments contain both tracks",
  "The multiplexed init segment is a well-formed box sequence containing the first file's ftyp and movie header, both track boxes and both track-extends boxes unchanged.",
  "all pairs of init segments", "all contents",
  [D+"segmentmuxer.py:MultiplexInits.construct_muxed"])
p("C39", "Multiplexed media segments point each track to its own samples",
  "In a sample-level multiplexed segment the box sizes are right and the data offset of each track designates, in the joint mdat, exactly the bytes the track's offset designated in its own segment.",
  "all pairs of single-fragment segments", "all sizes",
  [D+"segmentmuxer.py:MultiplexMediaSegments.mux_on_sample_level"])
p("C40", "Chunking is a lossless partition at the right boundaries",
  "Splitting a segment into chunks preserves the sample sequence, no chunk is empty (for positive chunk duration), every chunk but the last lasts at least until its nominal boundary, and a new chunk starts at the first sample at or after each boundary.",
  "all sample lists, chunk durations", "all lists",
  [D+"chunker.py:partition"])
p("C41", "Each chunk is a self-contained fragment with the right timing and data",
  "Parsing the chunks again yields the original samples' data, decode times, durations and composition offsets; the data offset of each chunk points at its first sample byte; sequence number and track id are those of the segment.",
  "all segments", "all contents",
  [D+"chunker.py:chunk", D+"chunker.py:decode_fragment", D+"boxes.py:create_moof", D+"boxes.py:create_mdat", D+"mp4.py:trun_box"])
p("C42", "Chunking preserves sync-sample information",
  "A sample is flagged as random access point in the chunk exactly when it was in the segment.",
  "all segments", "all flag values",
  [D+"chunker.py:decode_fragment", D+"boxes.py:TRUNBox.__iter__"])
p("C43", "Chunks are never sent ahead of (wall-clock) production",
  "Chunk i of a segment is sent no earlier than the wall-clock time at which its media would have been produced, AST + segment start + i*chunk duration (minus the 0.1 s margin), and no artificial delay is added beyond that, whatever the scheduling of the sending process.",
  "all clock readings/schedules, all chunk counts", "all schedules",
  ["dashlivesim/mod_wsgi/mod_dashlivesim.py:application", D+"chunker.py:simulate_continuous_production", D+"dash_proxy.py:process_media_segment"])
p("C44", "Bit writer and bit reader are inverse",
  "Writing any sequence of (value,width) fields whose widths sum to whole bytes and reading the same widths back yields the values; exp-Golomb codes read back the encoded number.",
  "all field sequences", "all sequences",
  [D+"bitwriter.py:Bitwriter.add_bits", D+"bitreader.py:bitreader.get_bits", D+"bitreader.py:ue"])
p("C45", "Byte-range replies contain exactly the requested bytes",
  "For a single range request on a payload the reply body is exactly the requested bytes clipped to the payload, the Content-Range header states their true positions, and unsatisfiable or malformed ranges give the full payload without a range header.",
  "all payloads and range strings", "all strings",
  ["dashlivesim/mod_wsgi/mod_dashlivesim.py:handle_byte_range"])
p("C46", "HTTP replies do not depend on earlier requests",
  "Status, headers and body of a reply depend only on the request, the clock and the content, not on the history of requests handled by the same process.",
  "all request histories", "all histories",
  ["dashlivesim/mod_wsgi/mod_dashlivesim.py:start_reply", "dashlivesim/mod_wsgi/mod_dashlivesim.py:application"])
p("C47", "Session limits: one redirect, then bounded service",
  "With a session limit, a manifest request without session start is redirected once to a URL carrying the start time, following the redirect is not redirected again, and no content is served later than start + limit or for starts more than 5 s ahead.",
  "all paths, times", "all URLs and times",
  ["dashlivesim/mod_wsgi/mod_dashlivesim.py:application"])
p("C48", "URL options: order irrelevant, last wins, stop at content name",
  "Options with different keys commute, a repeated scalar option takes the last value, nothing after the first non-option path part is interpreted as an option, and malformed integers are rejected.",
  "all option lists", "all lists and orders",
  [D+"configprocessor.py:ConfigProcessor.process_url"])
p("C49", "BaseURL up/down simulation follows the announced schedule",
  "With baseurl_uX_dY (X+Y>0) a segment request is refused with 'server down' exactly when the second in the minute falls in a down interval, and otherwise handled normally; with dX_uY the roles are swapped.",
  "all X, Y and times", "all values",
  [D+"dash_proxy.py:get_media"])
p("C50", "Loss signalling freezes the manifest during down time",
  "With segtimelineloss_1 and baseurl_uX_dY the manifest generated in a down interval equals the one generated at the last up second of that interval.",
  "all X,Y, times", "all times",
  [D+"mpd_proxy.py:get_mpd"])
p("C51", "Closed-caption insertion keeps segment structure consistent",
  "Inserting captions keeps each sample's original bytes in order, the sample size table matches the new sample data, the mdat size is right, and every caption whose time lies in the segment is inserted exactly once.",
  "all segments, caption lists", "all lists",
  ["dashlivesim/cc_inserter/cc_inserter.py:CCInsertFilter", "dashlivesim/cc_inserter/cc_inserter.py:generate_data"])
p("C52", "Language codes round-trip",
  "Three-letter lower-case language codes packed into a media header are read back unchanged.",
  "all codes", "17576 codes x layouts",
  [D+"boxes.py:MDHDBox", D+"mp4.py:mdhd_box", "dashlivesim/stpp_generator/stpp_creator.py"])
p("C53", "Box filters terminate",
  "Filtering any byte string terminates with output or an error.",
  "all byte strings", "all inputs",
  [D+"mp4filter.py:MP4Filter.filter", D+"mediasegmentfilter.py:MediaSegmentFilter.find_and_process_mdat"])
p("C54", "Content configuration files round-trip",
  "A VoD configuration written by the analyzer is read back with the same loop, duration and media data, and each representation is found under its content type.",
  "all configurations", "all values",
  [D+"configprocessor.py:VodConfig.read_config", D+"configprocessor.py:VodConfig.write_config", D+"configprocessor.py:VodConfig.content_type_for_rep"])
p("C55", "Thumbnails follow the availability rules of media segments",
  "A thumbnail is served in the same window as the media segment of the same number, from the same loop position, and refused with a proper error response otherwise.",
  "all configurations, numbers, times", "all values",
  [D+"dash_proxy.py:process_thumbnail"])
p("C56", "Manifest window and media window agree for number addressing",
  "At any time the latest segment number computed from the manifest by the DASH formula floor((now-AST-PeriodStart)/d)+startNumber-1 is served, the next one is not (zero ato), and all numbers back to now-tsbd are served.",
  "all configurations and times", "relates manifest and media code for all inputs",
  [D+"mpd_proxy.py:generate_dynamic_mpd", D+"mpd_proxy.py:generate_period_data", D+"dash_proxy.py:process_media_segment"])
p("C57", "Multiplexed representations are timed like single ones",
  "A request for rep A__B is accepted or refused exactly as for A alone and for B alone, and both parts come from the same loop position with the same number.",
  "all configurations, numbers, times", "all values",
  [D+"dash_proxy.py:process_media_segment", D+"configprocessor.py:Config.update_with_reps"])
p("C58", "The analyzer accepts content only if it can loop without audible drift",
  "If analysis succeeds, segment numbers are consecutive, and every segment's end deviates less than 0.1 s from the nominal grid, so that the loop duration differs from the content duration by less than 0.1 s.",
  "all segment lists", "all lists",
  ["dashlivesim/vodanalyzer/dashanalyzer.py:DashAnalyzer.checkAndUpdateMediaData", "dashlivesim/vodanalyzer/dashanalyzer.py:DashAnalyzer.getSegmentRange"])
p("C59", "xlink replacement touches exactly the selected periods",
  "With xlink_m on a periods_n manifest, the periods replaced by remote links are exactly those whose number is a multiple of n/m (except the first one when ads are inserted) and every other period is delivered unchanged; resolving a link returns the period with that id.",
  "all manifests with any period ids", "string surgery for all ids",
  [D+"mpd_proxy.py:generate_response_with_xlink"])
p("C60", "Errors never leak partial media",
  "Whenever a reply has an error status its body is a text message and its type is text/plain; whenever media is delivered the status is 200 or 206.",
  "all requests", "all requests",
  ["dashlivesim/mod_wsgi/mod_dashlivesim.py:application"])
with open(os.path.join(os.path.dirname(__file__), "..", "properties.jsonl"), "w") as f:
    for o in P: f.write(json.dumps(o) + "\n")
print(len(P))
