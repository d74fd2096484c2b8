{
 "C01": {
  "status": "proved",
  "note": ""
 },
 "C02": {
  "status": "proved",
  "note": ""
 },
 "C03": {
  "status": "proved",
  "note": ""
 },
 "C04": {
  "status": "proved",
  "note": ""
 },
 "C05": {
  "status": "partial",
  "note": "proved for payloads of 1..1017 bytes; for 1018..1023 bytes the claim is refuted (write past the callers' 1023-byte array)"
 },
 "C06": {
  "status": "proved",
  "note": ""
 },
 "C07": {
  "status": "proved",
  "note": "doubles are integer quanta; see DESIGN.md for the floating-point step"
 },
 "C08": {
  "status": "proved",
  "note": ""
 },
 "C09": {
  "status": "partial",
  "note": "round trip of everything but bias_indicator, which the encoder always transmits as 0 (refuted)"
 },
 "C14": {
  "status": "partial",
  "note": "proved for 1005,1007,1008,1029,1033,1230,4062,1001-1004,1010,1012,MSM4-7,1019,1020,1042,1044-1046 and SSR orbit/code bias/phase bias; refuted for 1006 and the SSR clock messages"
 },
 "C16": {
  "status": "proved",
  "note": ""
 },
 "C10": {
  "status": "partial",
  "note": "proved for at most 31 usable satellites with plausible values; refuted for 32 satellites, for a dual-frequency satellite lacking L2 and at the phase range rollover boundary"
 },
 "C11": {
  "status": "proved",
  "note": ""
 },
 "C12": {
  "status": "partial",
  "note": "proved for rough ranges below 255 ms not within 1/2048 ms below a whole ms and C/N0 below 63.5 dB-Hz; refuted outside (fields wrap); GLONASS day of week is not decoded"
 },
 "C13": {
  "status": "partial",
  "note": "proved for payloads announcing at most 32 satellites and 64 cells; refuted otherwise (cell_mask[64] and sats[32] overflow)"
 },
 "C15": {
  "status": "partial",
  "note": "1020 and 1042 exact; 1019 exact when toe=toc (encoder exchanges them otherwise: refuted); 1045/1046 exact while the health MSB is clear (decoder sign-extends: refuted)."
 },
 "C19": {
  "status": "proved",
  "note": "ms-exact; BDS ephemeris week start at second 14 refuted (finding 28)"
 },
 "C20": {
  "status": "proved",
  "note": "for reference weeks away from 0/32767, on integer milliseconds and in IEEE doubles from any double reference (Properties_timed); unknown reference aborts (finding 16)"
 },
 "C21": {
  "status": "proved",
  "note": "time-of-day resolution and inverse both ways, also in IEEE doubles from any double reference; findings 26, 27 refuted separately"
 },
 "C22": {
  "status": "proved",
  "note": "arbitrary number of threads and schedules, float storage modelled"
 },
 "C17": {
  "status": "proved",
  "note": "for every buffer, and the buffer bound is an invariant of every history"
 },
 "C18": {
  "status": "partial",
  "note": "no mixing by time-of-week/sender and order preservation for every history proved; 'exactly one epoch' refuted in three documented cases (incomplete MSM epoch after 5 s gap, same tow a week apart, stations sharing a sender id); per-message lossless acceptance proved outside them"
 },
 "C23": {
  "status": "proved",
  "note": "gating for every message number; empty observation message before time known refuted separately"
 },
 "C52": {
  "status": "partial",
  "note": "bound and prefix proved; character boundary only for 1-2 unit characters, 3-unit refuted"
 },
 "C24": {
  "status": "partial",
  "note": "pairing, join, once per pair, time and no abort proved for every payload stream; refuted: a clock correction at an index >= number of orbit corrections is dropped although its orbit is present, and an out-of-range BeiDou epoch wraps instead of being rejected"
 },
 "C25": {
  "status": "proved",
  "note": "decoding of every laid-out message, array bounds, complete and ordered bias lists; for every message whose epoch time is a time of week"
 },
 "C31": {
  "status": "proved",
  "note": "For every byte stream, every splitting into reads and every interleaving of errors/end of stream."
 },
 "C32": {
  "status": "proved",
  "note": "Chunking invariance, delivery of separated frames, resynchronisation after arbitrary garbage; two refuted strengthenings (corrupted length swallows a valid frame; end of data inside a frame loses it)."
 },
 "C33": {
  "status": "proved",
  "note": "All 13 libubx messages; encoder and decoder are inverse bijections between in-range messages and byte strings."
 },
 "C34": {
  "status": "proved",
  "note": "No UB on any byte string, exact acceptance, every truncation rejected, for all 13 decoders."
 },
 "C27": {
  "status": "partial",
  "note": "bijection proved for all supported signals and satellites; refuted for the GPS Z-tracking aliases (1W/2W share MSM ids with other codes)"
 },
 "C51": {
  "status": "proved",
  "note": ""
 },
 "C53": {
  "status": "partial",
  "note": "proved for signals the constellation supports; refuted: an unsupported signal writes signal_mask[32], and a refused signal leaves its satellite in the header"
 },
 "C35": {
  "status": "partial",
  "note": "proved for at most 210 measurements and pseudoranges in [0, 85899344] m; refuted beyond 210 (header nibble wraps), for tow rounding up to 604800000 and for pseudoranges out of range (undefined conversion)"
 },
 "C54": {
  "status": "partial",
  "note": "proved for every finite value away from the boundary; refuted within half a unit of the integer limits and for NaN"
 },
 "C38": {
  "status": "partial",
  "note": "odometry, ticks, inertial assembly, clocks and scalings proved for every history; refuted: counters of different wheels share one accumulator, the 22-bit wrap is not handled, time stamps may be one unit early"
 },
 "C36": {
  "status": "partial",
  "note": "Assembly, freshness, one issue of data, isolation between satellites, at-most-once and completeness (BDS, GAL, GLO: one set; GPS: two consecutive sets) proved for every history, with the external orbit decoders' verdicts as arbitrary parameters. Refuted: one complete GPS set after a stale subframe 3 is dropped, GLONASS string number 0 indexes out of bounds, Galileo page 5 carries no IODnav and is not tied to the set, eight-word Galileo messages are ignored. Not modelled: the orbit decoding of the assembled words (libswiftnav)."
 },
 "C37": {
  "status": "proved",
  "note": "Forwarded exactly when 8 or 9 words, preamble and CRC-24Q of the 250-bit message are right; content proved bit for bit. The time stamp is right for tow >= 1120 ms (C37_time_partial); below, it wraps (C37_time_refuted)."
 },
 "C39": {
  "status": "partial",
  "note": "Checksum = CCITT remainder (unique); 44/28-byte messages accepted iff sync, id, CRC right, fields exact; refuted for frames with another length field (footer read at a fixed offset)."
 },
 "C40": {
  "status": "partial",
  "note": "Every frame delivered once, in order, for every chunking, no overflow/assert, when all length fields are 17..4095 (exact complement proved); refuted: length <16 overflows, 16 stalls, >=4096 asserts."
 },
 "C41": {
  "status": "proved",
  "note": "Exact 1/256 ms time, output of whole streams, scaling bounds for acceleration/rotation/velocity; refuted outside the 32-bit range."
 },
 "C42": {
  "status": "proved",
  "note": "Only CRC-32-valid frames reach the callbacks, the value checked is the remainder of the polynomial division, and every delivered message is decoded from its frame. The refuted theorem exhibits the one input class on which the process aborts (CRC-valid frame of a handled type with an unexpected body length)."
 },
 "C43": {
  "status": "partial",
  "note": "Delivery is independent of read sizes when every read returns a full buffer or end of input; refuted in general: a frame split by a short read is lost, the tool drops the tail of the file, an empty stream and a 4096-byte frame stop the parser."
 },
 "C26": {
  "status": "partial",
  "note": "Exact on every table entry for URA, F_T, BDS URAI, SISA and both fit intervals; SISA is monotone and within half a step of every value. Refuted for values between entries of URA/F_T: not conservative, not monotone, index can exceed 4 bits, undefined for nonpositive values; short fit intervals are lengthened."
 },
 "C28": {
  "status": "partial",
  "note": "Proved for every history whose observation messages have a complete header, announce at least one message per epoch and whose weeks lie within 3550 weeks. The unrestricted property is false of the code: a sequence announcing zero messages overruns the buffer (C28_zero_total_refuted), payloads shorter than the header are read out of bounds, and larger week jumps overflow a signed product."
 },
 "C29": {
  "status": "proved",
  "note": "Multiple bit for every converted epoch; additionally every observation of an epoch that fits is carried in its cell. Epochs with duplicates, SBAS, unknown codes or more than 32 satellites of a constellation stop the process or overrun an array (refuted theorems)."
 },
 "C30": {
  "status": "partial",
  "note": "Proved when no other message of a different sender arrives between observation messages; false otherwise (C30_foreign_message_refuted)."
 },
 "C44": {
  "status": "proved",
  "note": "Buffer bounds for every text and buffer content, and form of every delivered sentence in every history. External: printf's %f output contains only printable characters other than $ and *; geoid, sqrt, atan2."
 },
 "C45": {
  "status": "partial",
  "note": "Proved: one epoch's data while the GNSS solution is reported, never twice in a row, strictly increasing without BEST mode, complete epochs are sent (tow <> 0). False, with counterexamples: fused groups are not checked for a common time; at the switch an epoch can be repeated; an epoch at time of week 0 is missed."
 },
 "C46": {
  "status": "partial",
  "note": "Proved: rate respected, 0 disables, one in r epochs when the times of week are multiples of the period plus less than half a period. False, with counterexamples: epochs a millisecond early, > 500 Hz, 0.1 Hz, week rollover."
 },
 "C47": {
  "status": "proved",
  "note": "GSA lists ascending, distinct, at most 12, complete below 12; GSV lists every satellite once, four per sentence, numbered. Also: SBAS numbers from PRN 152 overlap GLONASS numbers (C47_sbas_glonass_overlap_refuted, beyond the claim)."
 },
 "C48": {
  "status": "proved",
  "note": "Mode as a function of the history. Also: a request for FUSED is never served (C48_fused_request_refuted)."
 },
 "C49": {
  "status": "partial",
  "note": "Every UTC time but the half hundredth before a leap second, where the rounding skips the leap second (C49_before_leap_second_refuted)."
 },
 "C50": {
  "status": "partial",
  "note": "List is a prefix of one epoch and never exceeds 224 entries; GSA when the count matches the last total. False: the total of a rejected message makes an incomplete list look complete; observations not marked valid are listed."
 },
 "C55": {
  "status": "proved",
  "note": "For UTC messages that are invalid or hold a time; or the sentence fills the whole buffer (only possible with extreme printed numbers)."
 },
 "C56": {
  "status": "proved",
  "note": "sentences that are cut at the end of the buffer are excepted; printf of floating-point numbers, geoid, square roots and arc tangents are parameters; fix type 7 aborts (refuted theorem)"
 },
 "C57": {
  "status": "partial",
  "note": "Round trips proved for 1019, 1020, 1042, 1045/1046. False of the code and refuted: the L2 code/data flags (1019), a BeiDou reference time at the start of a week, GLONASS slot 0, Galileo issue of data taken from iodc, slot uninitialised without leap seconds, undefined conversion of out-of-range SBP values. QZSS has no way back."
 },
 "C58": {
  "status": "partial",
  "note": "All values proved for GPS, QZSS, Galileo, BeiDou, GLONASS. Refuted: the QZSS valid flag compares all 10 bits of IODC with IODE."
 },
 "C59": {
  "status": "partial",
  "note": "Proved for non-empty logs. False of the code: an empty log casts a negative double to unsigned; the phase is declared valid without phase lock; GLONASS satellite numbers are not translated (see the _refuted theorems)."
 },
 "C60": {
  "status": "partial",
  "note": "Time, fix mode, attitude and GPS ephemeris proved in full. Positions: standard deviations below 65.5 m (above, the cast is undefined) and listed position types; velocity: accurate cos/sin assumed. The rest is refuted."
 },
 "C61": {
  "status": "partial",
  "note": "Proved for every IMU type with documented units except the Epson accelerometers (10^6 too large, refuted); lost logs, error logs and the auxiliary message after a week end are refuted."
 },
 "C62": {
  "status": "partial",
  "note": "Positions and attitudes are proved as stated per converter except that flags and satellites of high rate positions come from the last NAV-PVT of any converter of the process (pvt_state is a file static: C62_shared_refuted); velocity accuracy is sent in cm/s and modulo 65536 (C62_velocity_accuracy_refuted), the velocity mode is always dead reckoning or invalid plus INS (C62_velocity_mode_refuted), gnssFixOK is ignored (C62_fix_ok_refuted); angles and velocities beyond 214748364 units overflow (undefined)."
 },
 "C63": {
  "status": "partial",
  "note": "Split, order and contents proved; azimuths above 510 degrees or negative and strengths of 64 dB-Hz and more do not fit and wrap (C63_cn0_refuted); satellites of unknown systems are sent with an invalid code (C63_unknown_system_refuted). Forwarding fully proved."
 },
 "C64": {
  "status": "proved",
  "note": "For week numbers below 32000 (SBP carries a signed 16 bit difference)."
 },
 "C65": {
  "status": "proved",
  "note": "The _refuted theorems show what the stated limits exclude: C/N0 of 63.5 dB-Hz or more, carrier phase with an arbitrary ambiguity offset, a second pseudorange 300 m away, ranges of 255 light-ms. Bias options at their default 0."
 },
 "C66": {
  "status": "proved",
  "note": "Coordinates in the 38-bit range and finite heights; C66_*_refuted: NaN height accepted (undefined conversion), far coordinates wrap, station number changes on RTCM->SBP->RTCM."
 },
 "C67": {
  "status": "proved",
  "note": "All statements for all histories; constants of the table compared in centimetres."
 },
 "C68": {
  "status": "partial",
  "note": "proved for up to 31 satellites, pseudoranges up to 255 light-ms, phases within 1000 km, L2 pseudoranges within 163 m of L1 and not below its whole-ms part; missing because false of the code (refuted theorems): exact GPS pseudorange when the whole light-ms end in 5 (2 cm off), signal identity of P code, L2 below the whole-ms part (undefined conversion), 32 satellites (count wraps to 0), 33 first signals (array overrun), GLONASS with unknown leap seconds (rejected frame); lock class decreases by one per pass."
 },
 "C69": {
  "status": "proved",
  "note": ""
 },
 "C70": {
  "status": "partial",
  "note": "The level is lost and the character count of the 1029 message is always 0 (C70_level_refuted, C70_character_count_refuted); a log message without text is not sent."
 },
 "C71": {
  "status": "partial",
  "note": "At most one warning proved for all histories; the sender is wrong (C71_sender_refuted) and a first MSM1-3 message shorter than 5 bytes suppresses the warning for good (C71_short_message_refuted)."
 },
 "C72": {
  "status": "partial",
  "note": "Exactly the intact frames are forwarded if SBAS frames are padded to 256..288 bits; 250-bit frames are lost (C72_250_bits_refuted); contents announced beyond the payload are read from whatever follows, even outside the buffer (C72_reads_other_bytes_refuted, C72_reads_outside_refuted)."
 },
 "C73": {
  "status": "partial",
  "note": "Exclusion, duplicates and resumption of legacy messages proved for all histories; the comparisons also in IEEE doubles, where exactly 5.000 s may go either way (C73_refuted_exactly_five_seconds); repeated or older MSM messages are not recognised (C73_repeated_msm_refuted, C73_msm_order_refuted) and one legacy message dated in the future blocks all right ones up to that time (C73_future_time_blocks_refuted)."
 },
 "C74": {
  "status": "partial",
  "note": "Proved: version string shorter than the array, configuration string, RF status decoder neither reads outside nor fails an assertion. Refuted: a version string as long as the array writes behind it; no RF status message is ever accepted; the version decoder reads behind a cut-off message."
 },
 "C75": {
  "status": "partial",
  "note": "Proved for every behaviour of the callbacks: exact bytes in order while at most 2048 bytes wait; each call returns its bytes; end to end for epochs of up to 150 observations and for wrapped messages. Refuted: a 210-observation epoch and a slow caller lose frames; GLONASS carrier phases are never sent (no way to set the channels)."
 },
 "C76": {
  "status": "partial",
  "note": "All five messages, for all representable values: one frame, delivered whatever the split, every parameter within 0.501 unit, integers equal. Refuted remainder: GPS toe and toc arrive exchanged (C76_gps_reference_times_refuted), a clock value too large for the field changes sign instead of being rejected (C76_gps_clock_overflow_refuted), without leap seconds GLONASS t_b is uninitialised and health forced (C76_glo_unknown_leap_refuted), a Galileo source value above 1 fails an assertion (C76_gal_source_refuted). Range exclusions are those refuted under C15/C57 (Galileo health sign, BeiDou week start, GLONASS midnight)."
 },
 "C77": {
  "status": "partial",
  "note": "Complete read theorems (an equation for every payload) for 1005, 1007, 1008, 1019, 1020, 1029, 1033, 1042, 1044, 1230, 4062; written theorems for all encoders except legacy (C10). Partial because the rest is false: 1045/1046 health read as signed (refuted), short 1006 accepted with stale contents (refuted), legacy 80000h pseudorange reported valid (refuted), 1019 writes the two times exchanged (refuted), 1230 bias indicator (C09). MSM layout is C12, SSR C24/C25."
 },
 "C78": {
  "status": "partial",
  "note": "For every MSM4-7 payload whose values SBP can hold (and for every ordinary message without further condition) each cell arrives with its range, phase, Doppler, C/N0, lock time and flags, biases and masks applied. Not true in general: satellite information 15 is taken for GLONASS channel +8, C/N0 fields 1022-1023, negative ranges and rates beyond 16-bit Doppler have no defined result (refuted theorems)."
 },
 "C79": {
  "status": "partial",
  "note": "All command lines of constellation flags other than -S, -s -o -v and well-formed bias lists. Not true for -S (needs a value, swallows the next option), negative signal numbers (write outside the array), entries after an unreadable one (refuted theorems)."
 },
 "C80": {
  "status": "partial",
  "note": "Proved for every payload of the four messages whose L1 range field is not 80000h, whose second signal has a known GLONASS channel and whose ranges are not negative (satellites beyond 1200 km need no condition). Refuted otherwise: DF011 = 80000h (invalid) is reported as a range; 1012 with unknown channel still reports L2 with a wrong carrier; a negative range is converted to unsigned."
 },
 "C81": {
  "status": "partial",
  "note": "Proved for byte streams of complete MSM and legacy epochs (any number and order; legacy epochs in time order and 5 s after MSM ones), all chunkings, with other messages and channel announcements in between; message contents as in C78/C80 (ordinary cells, regular satellites), at most 210 cells per epoch. Refuted otherwise: a first MSM epoch exactly at the start of a week is dropped and an empty epoch of time 0 sent; likewise for an epoch consisting of unconverted messages only."
 },
 "C82": {
  "status": "partial",
  "note": "Proved for epochs of distinct supported signals with values in range (as C65), at most 210 observations, not only QZSS, default options without biases, the receiver's time within half a week (GLONASS: 30 s) of the epoch: one epoch, a stream of epochs as bytes, and from the SBP messages themselves. Refuted otherwise: only 12 bits of the sender id survive (0x1234 becomes 0xF2B4), an epoch of QZSS observations only arrives as an empty epoch of sender 0 and time 0, and so does a first epoch exactly at the start of a week."
 },
 "C83": {
  "status": "partial",
  "note": "proved for streams produced by sbp2rtcm, with each epoch in step with the one before: C83_stream_followed_partial (general), C83_steady_stream_partial (gaps up to 15 s). Without that it is refuted: GLONASS alone once a minute is lost after the first epoch (C83_glonass_every_minute_refuted)"
 },
 "C84": {
  "status": "partial",
  "note": "Both directions for every message type sbp2rtcm converts, over any history and as bytes: with the receiver's time given (C84_relay_partial) and with rtcm3tosbp -o keeping its own time (C84_pipe_partial, C84_steady_pipe_partial). Partial: MSM5 and the tool's configuration (no antenna, no GLONASS channels); messages must be representable in RTCM (item_ok); the first epoch must not be at tow 0; GLONASS ephemerides within half a day of the time; the steady corollary excludes them. Refuted: GLONASS phases of the observation messages do not survive (the tool never supplies channels)."
 },
 "C85": {
  "status": "proved",
  "note": "Any payloads and any bytes from the initial state. Where the run has no result (undefined conversion of a double, failed assertion) nothing is claimed of that run; its prefixes are runs too. The other messages' outputs are a parameter (C66-C76)."
 },
 "C86": {
  "status": "proved",
  "note": "The hypotheses include C82's (complete epoch, leap seconds known, agreeing channel maps, reference times in step, the first epoch of a run not exactly at the start of a week). The order of the observations is not preserved (refuted), only their set; the exact order on the air is that of C82. An epoch whose first pass leaves no observation is sent no second time."
 },
 "C87": {
  "status": "proved",
  "note": "SSR messages are not part of the model of the other messages. Ephemerides: 1020 and 1044 only at a known time. The station, tunnel and ephemeris claims assume that none of these conversions has undefined behaviour on the stream (no RUndefined), the observation claim does not. 1020 belongs to the observations because it teaches the GLONASS channels; 1230 and the numbers 1070-1073 etc. belong to them because the end-of-epoch bit of any message numbered 1070 to 1229 flushes the buffer. C87_epochs_among_others_partial carries the epoch conversion of C82, under its hypotheses, to streams in which the epochs are mixed with other messages."
 },
 "C88": {
  "status": "proved",
  "note": "With C24_never_aborts the conversion is defined for every stream whose receiver time is known (good_env). The time itself is shared with the other messages (C87)."
 },
 "C89": {
  "status": "proved",
  "note": "The tool's configuration (MSM5, no antenna, no GLONASS channels). With several senders base positions, biases and logs do change the epoch being assembled: C30_foreign_message_refuted."
 }
}