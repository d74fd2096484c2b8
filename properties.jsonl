{"id": "C01", "title": "RTCM input: chunking invariance", "statement": "Feeding an RTCM byte stream to rtcm2sbp_process delivers exactly the same sequence of frames to the decoder however the read callback splits the bytes over calls: the sequence is a function of the concatenated bytes only.", "quantifier": "every byte stream and every way of cutting it into non-empty reads of at most the read-buffer size", "why_tests_cant": "the number of splittings of a stream is exponential; a test fixes one file and one chunk size", "anchors": ["c/gnss_converters/src/rtcm3_sbp.c: rtcm2sbp_process"]}
{"id": "C02", "title": "RTCM input: only CRC-valid frames are decoded", "statement": "Every frame rtcm2sbp_process hands to the decoder is a contiguous piece of the input: 0xD3, a 10-bit length n>0, n payload bytes, and the 3 bytes that are the CRC-24Q of everything before them; successive frames come from non-overlapping, increasing positions of the stream.", "quantifier": "every byte stream and every read splitting", "why_tests_cant": "corruption can be any bit pattern at any offset", "anchors": ["c/gnss_converters/src/rtcm3_sbp.c: rtcm2sbp_process, rtcm2sbp_decode_frame"]}
{"id": "C03", "title": "RTCM input: every valid frame is delivered", "statement": "If the stream is a sequence of valid frames separated by runs of bytes that contain no 0xD3 and is followed by at least one more byte, every one of the frames is delivered, exactly once and in order, and nothing else is.", "quantifier": "every list of valid frames and every 0xD3-free garbage between them, every splitting", "why_tests_cant": "needs all frame contents, lengths and gaps", "anchors": ["c/gnss_converters/src/rtcm3_sbp.c: rtcm2sbp_process"]}
{"id": "C04", "title": "RTCM input: the receive FIFO never overflows", "statement": "After every rtcm2sbp_process call at most 1028 undecoded bytes are kept, so the next read of at most 3067 bytes always fits in the 4096-byte FIFO and no received byte is ever thrown away because of a full FIFO.", "quantifier": "every history of reads", "why_tests_cant": "worst-case occupancy is a property of all histories", "anchors": ["c/gnss_converters/src/rtcm3_sbp.c: rtcm2sbp_process", "c/gnss_converters/include/gnss-converters/rtcm3_sbp.h: RTCM3_FIFO_SIZE, RTCM3_BUFFER_SIZE"]}
{"id": "C05", "title": "RTCM output frames are exactly what the input side accepts", "statement": "A frame produced by the SBP-to-RTCM encoder from any non-empty payload of at most 1023 bytes is accepted by the RTCM-to-SBP framing and delivers exactly that payload; an empty payload produces no frame.", "quantifier": "every payload", "why_tests_cant": "payload space is infinite for a test", "anchors": ["c/gnss_converters_extra/src/sbp_rtcm3.c: encode_rtcm3_frame", "c/gnss_converters/src/rtcm3_sbp.c: rtcm2sbp_process"]}
{"id": "C06", "title": "Bit fields: write then read, and nothing else changes", "statement": "rtcm_setbitu/setbitul/setbits/setbitsl/set_sign_magnitude_bit followed by the matching get at the same position returns the value (mod 2^len for unsigned; exactly for signed values in range), and no bit outside [pos,pos+len) changes.", "quantifier": "every buffer, position, length 1..32 (1..64) and value", "why_tests_cant": "position x length x value x buffer content is unbounded", "anchors": ["c/librtcm/src/bits.c"]}
{"id": "C07", "title": "Station messages 1005/1006/1007/1008/1033 round-trip", "statement": "Decoding an encoded 1005, 1006, 1007, 1008 or 1033 message yields the message that was encoded, for every message whose fields are in the ranges of the wire format.", "quantifier": "every in-range message", "why_tests_cant": "38-bit coordinates and arbitrary strings", "anchors": ["c/librtcm/src/encode.c: rtcm3_encode_1005, rtcm3_encode_1006, rtcm3_encode_1007, rtcm3_encode_1008, rtcm3_encode_1033", "c/librtcm/src/decode.c: rtcm3_decode_1005, rtcm3_decode_1006, rtcm3_decode_1007, rtcm3_decode_1008, rtcm3_decode_1033"]}
{"id": "C08", "title": "Text message 1029 round-trips", "statement": "Decoding an encoded 1029 message yields the same station, date, time, character count and bytes, for every text of up to 255 bytes.", "quantifier": "every text and header", "why_tests_cant": "all lengths and contents", "anchors": ["c/librtcm/src/encode.c: rtcm3_encode_1029", "c/librtcm/src/decode.c: rtcm3_decode_1029"]}
{"id": "C09", "title": "GLONASS bias message 1230 round-trips", "statement": "Decoding an encoded 1230 message yields the same station id, bias indicator, FDMA mask and code-phase biases.", "quantifier": "every in-range 1230 message", "why_tests_cant": "all masks and values", "anchors": ["c/librtcm/src/encode.c: rtcm3_encode_1230", "c/librtcm/src/decode.c: rtcm3_decode_1230"]}
{"id": "C10", "title": "Legacy observation messages round-trip", "statement": "Decoding an encoded 1001/1002/1003/1004/1010/1012 message yields the same header, satellites and quantised observables, for every list of satellites the message can hold.", "quantifier": "every in-range observation message", "why_tests_cant": "combinatorial in the number and content of satellites", "anchors": ["c/librtcm/src/encode.c: rtcm3_encode_1001..1004, rtcm3_encode_1010, rtcm3_encode_1012", "c/librtcm/src/decode.c: rtcm3_decode_1001..1004, rtcm3_decode_1010, rtcm3_decode_1012"]}
{"id": "C11", "title": "MSM masks are mutually consistent", "statement": "The MSM mask helpers agree: the n-th set bit of a mask is found at the position that has exactly n-1 set bits before it, and satellite/signal/cell indices used by encoder and decoder enumerate exactly the set cells in the same order.", "quantifier": "every satellite, signal and cell mask", "why_tests_cant": "2^64 x 2^32 masks", "anchors": ["c/librtcm/src/msm_utils.c: count_mask_values, find_nth_mask_value", "c/librtcm/src/decode.c: rtcm3_read_msm_header", "c/gnss_converters/src/rtcm3_utils.c: msm_add_to_header, msm_add_to_cell_mask"]}
{"id": "C12", "title": "MSM observations round-trip", "statement": "Decoding an encoded MSM4/MSM5 message yields the header, masks and per-cell quantised data that were encoded.", "quantifier": "every MSM header, masks and cell data within the supported sizes", "why_tests_cant": "combinatorial in masks and values", "anchors": ["c/librtcm/src/encode.c: rtcm3_encode_msm4, rtcm3_encode_msm5", "c/librtcm/src/decode.c: rtcm3_decode_msm4, rtcm3_decode_msm5"]}
{"id": "C13", "title": "MSM decoding never writes outside the message arrays", "statement": "Decoding any byte string as an MSM message writes only inside the 64-entry cell mask, the 32-entry satellite array and the 64-entry signal array.", "quantifier": "every payload", "why_tests_cant": "needs every mask combination an attacker can send", "anchors": ["c/librtcm/src/decode.c: rtcm3_read_msm_header, rtcm3_decode_msm_internal"]}
{"id": "C14", "title": "Truncated RTCM messages are rejected", "statement": "If a decoder for a fixed-layout RTCM message returns RC_OK, the payload held every bit of that message; a strictly shorter payload is rejected.", "quantifier": "every payload, every truncation point", "why_tests_cant": "every message type x every truncation point x every content", "anchors": ["c/librtcm/src/decode.c", "c/librtcm/src/eph_decode.c", "c/librtcm/src/ssr_decode.c"]}
{"id": "C15", "title": "Broadcast ephemeris messages round-trip", "statement": "Decoding an encoded 1019/1020/1042/1045/1046 ephemeris yields the same ephemeris for all in-range fields.", "quantifier": "every in-range ephemeris", "why_tests_cant": "30+ independent wide fields", "anchors": ["c/librtcm/src/eph_encode.c", "c/librtcm/src/eph_decode.c"]}
{"id": "C16", "title": "Swift proprietary encapsulation 4062 round-trips", "statement": "An SBP frame wrapped into RTCM 4062 and decoded again yields the same message type, sender and payload for every payload of up to 255 bytes.", "quantifier": "every SBP frame", "why_tests_cant": "all payloads", "anchors": ["c/librtcm/src/encode.c: rtcm3_encode_4062", "c/librtcm/src/decode.c: rtcm3_decode_4062", "c/gnss_converters_extra/src/sbp_rtcm3.c", "c/gnss_converters/src/rtcm3_sbp.c: rtcm2sbp_decode_payload"]}
{"id": "C17", "title": "RTCM-to-SBP observation epochs are split losslessly", "statement": "When an epoch is sent, the SBP observation messages carry all buffered observations, in order, at most 14 each, every message but the last full, numbered 0..total-1 with total in the high nibble, all with the epoch's time and sender; the buffer is empty afterwards.", "quantifier": "every buffer of up to 210 observations", "why_tests_cant": "all counts and contents", "anchors": ["c/gnss_converters/src/rtcm3_sbp.c: send_observations"]}
{"id": "C18", "title": "RTCM-to-SBP: an epoch never mixes times or senders", "statement": "All observations in one emitted epoch come from messages with the same time of week and the same sender, in arrival order, and unless the 210-observation limit is hit each usable observation received is emitted in exactly one epoch or still buffered.", "quantifier": "every sequence of observation messages and end-of-epoch markers", "why_tests_cant": "history property", "anchors": ["c/gnss_converters/src/rtcm3_sbp.c: add_obs_to_buffer, add_msm_obs_to_buffer, send_observations"]}
{"id": "C19", "title": "BDS and GPS time of week conversions are inverse", "statement": "Converting a BDS time of week (ms) to GPS and back, in either converter direction, is the identity on valid times of week and the result is always a valid time of week; the two differ by 14 s modulo one week.", "quantifier": "every millisecond of the week", "why_tests_cant": "604.8 million values, boundaries at the week rollover", "anchors": ["c/gnss_converters/src/rtcm3_sbp.c: beidou_tow_to_gps_tow", "c/gnss_converters_extra/src/sbp_rtcm3.c: gps_tow_to_beidou_tow"]}
{"id": "C20", "title": "Message time resolution picks the nearest week", "statement": "The full GPS time assigned to an RTCM time-of-week is the unique time with that time of week that lies within half a week of the reference time.", "quantifier": "every reference time and time of week", "why_tests_cant": "rollover boundaries of every week", "anchors": ["c/gnss_converters/src/rtcm3_sbp.c: compute_gps_message_time"]}
{"id": "C21", "title": "GLONASS time resolution picks the nearest day", "statement": "The GPS time assigned to a GLONASS time of day is congruent to it (3 h and leap-second shift included) modulo one day and within half a day of the reference; invalid times of day are rejected; and the sbp2rtcm direction inverts it.", "quantifier": "every reference time, leap second count and time of day", "why_tests_cant": "day and week rollovers", "anchors": ["c/gnss_converters/src/rtcm3_sbp.c: compute_glo_time", "c/gnss_converters_extra/src/sbp_rtcm3.c: compute_glo_tow_ms"]}
{"id": "C22", "title": "Time truth is monotone and sound", "statement": "Once time truth is solved it stays solved, never goes backwards, and is always a value derived from an update that was accepted; invalid updates never change it.", "quantifier": "every sequence and interleaving of updates", "why_tests_cant": "schedules and histories", "anchors": ["c/gnss_converters/src/time_truth.c"]}
{"id": "C23", "title": "Nothing time-dependent is emitted before time is known", "statement": "While time truth is unsolved, only the message types that do not need it (or can provide it) produce output; every other RTCM message is dropped without any effect on the output or the observation buffer.", "quantifier": "every message and state", "why_tests_cant": "all message numbers", "anchors": ["c/gnss_converters/src/rtcm3_sbp.c: rtcm2sbp_decode_payload"]}
{"id": "C24", "title": "SSR orbit and clock corrections are only combined when they belong together", "statement": "A combined orbit/clock SBP message emitted from separate RTCM orbit and clock messages uses an orbit and a clock with the same epoch time, SSR IOD and constellation, for the same satellite, once per pair.", "quantifier": "every sequence of SSR messages", "why_tests_cant": "history property", "anchors": ["c/gnss_converters/src/rtcm3_sbp_ssr.c"]}
{"id": "C25", "title": "SSR bias lists are carried over completely", "statement": "Each satellite of an SSR code/phase bias message produces exactly one SBP message with all its biases in order and nothing else (a 31st phase bias, which does not fit, goes into a second message with the same header); no accepted message overflows the bias or satellite arrays.", "quantifier": "every SSR bias message", "why_tests_cant": "all counts", "anchors": ["c/gnss_converters/src/rtcm3_sbp_ssr.c"]}
{"id": "C26", "title": "Accuracy and interval tables are consistent", "statement": "Encoding an accuracy (URA/SISA/fit interval) and decoding it again never yields a better accuracy than the input, is monotone, and is exact on table entries.", "quantifier": "every index and every value", "why_tests_cant": "real-valued inputs", "anchors": ["c/gnss_converters/src/rtcm3_utils.c: convert_ura_to_uri, convert_sisa_to_meters, rtcm3_decode_fit_interval_gps"]}
{"id": "C27", "title": "Signal and satellite numbering is a bijection", "statement": "Mapping a code to its MSM signal index and back, and a satellite to its MSM satellite index and back, is the identity on every supported code and satellite, indices are in range and unsupported inputs are rejected.", "quantifier": "every code/signal index and satellite number of every constellation", "why_tests_cant": "pairs across tables", "anchors": ["c/gnss_converters/src/rtcm3_utils.c: code_to_msm_signal_id, msm_signal_to_code, prn_to_msm_sat_id, msm_sat_to_prn"]}
{"id": "C28", "title": "SBP-to-RTCM observation assembly stays in bounds and in sequence", "statement": "The SBP observation messages of one epoch are accepted only in increasing sequence order for a single epoch time and the observation buffer (210 entries) is never written past its end.", "quantifier": "every sequence of observation messages", "why_tests_cant": "histories of sequence counters", "anchors": ["c/gnss_converters_extra/src/sbp_rtcm3.c: sbp2rtcm_sbp_obs_cb, sbp_buffer_to_rtcm3"]}
{"id": "C29", "title": "MSM multiple-message bit marks exactly the last message of the epoch", "statement": "Of the MSM messages emitted for an epoch all but the last have the multiple-message bit set and the last has it clear.", "quantifier": "every set of constellations and observation counts in the epoch", "why_tests_cant": "all combinations", "anchors": ["c/gnss_converters_extra/src/sbp_rtcm3.c: sbp_buffer_to_msm"]}
{"id": "C30", "title": "Observations are emitted under the station id of their sender", "statement": "Every RTCM observation message emitted carries the station id of the SBP sender of the observations in it.", "quantifier": "every interleaving of SBP messages from several senders", "why_tests_cant": "history property", "anchors": ["c/gnss_converters_extra/src/sbp_rtcm3.c: sbp2rtcm_base_pos_ecef_cb, sbp2rtcm_sbp_obs_cb"]}
{"id": "C31", "title": "UBX input: only checksum-valid frames are processed", "statement": "Every UBX frame handed to the message handler is a contiguous piece of the stream B5 62 class id len payload with a correct Fletcher-8 checksum, and never exceeds the 4096-byte frame buffer.", "quantifier": "every byte stream and read splitting", "why_tests_cant": "arbitrary corruption", "anchors": ["c/gnss_converters/src/ubx_sbp.c: read_ubx_frame"]}
{"id": "C32", "title": "UBX input: chunking invariance and delivery", "statement": "As long as reads return at least one byte until the data are exhausted, the frames delivered depend only on the concatenated bytes, and a stream of valid frames separated by B5-free garbage delivers exactly those frames in order.", "quantifier": "every byte stream and read splitting", "why_tests_cant": "exponentially many splittings", "anchors": ["c/gnss_converters/src/ubx_sbp.c: reload_ubx_buffer, read_ubx_bytes, read_ubx_frame"]}
{"id": "C33", "title": "UBX messages round-trip", "statement": "Decoding an encoded UBX message (NAV-PVT, NAV-ATT, NAV-CLOCK, NAV-VELECEF, NAV-SAT, MGA-GPS-EPH, RXM-RAWX, RXM-SFRBX, ESF-INS, ESF-MEAS, ESF-RAW, HNR-PVT) yields the original message.", "quantifier": "every in-range message", "why_tests_cant": "wide fields, variable-length arrays", "anchors": ["c/libubx/src/decode.c", "c/libubx/src/encode.c"]}
{"id": "C34", "title": "UBX decoders never read or write out of bounds", "statement": "Every UBX decoder accepts only payloads that contain all the fields it reads and fills at most the capacity of its output arrays; everything else is rejected.", "quantifier": "every payload", "why_tests_cant": "all lengths and counts", "anchors": ["c/libubx/src/decode.c"]}
{"id": "C35", "title": "UBX raw observations are split losslessly", "statement": "One RXM-RAWX message yields SBP observation messages carrying all its convertible observations in order, at most 14 per message, correctly numbered.", "quantifier": "every RAWX message", "why_tests_cant": "all counts", "anchors": ["c/gnss_converters/src/ubx_sbp.c: handle_rxm_rawx"]}
{"id": "C36", "title": "GPS/BDS/GAL/GLO broadcast frames are assembled only from one data set", "statement": "An ephemeris is produced from UBX subframes only when all needed subframes/pages/strings of one satellite and one issue of data have been received, and is produced at most once per set.", "quantifier": "every sequence of subframes of every satellite", "why_tests_cant": "histories with interleaved satellites and issue changes", "anchors": ["c/gnss_converters/src/ubx_ephemeris/gps.c", "c/gnss_converters/src/ubx_ephemeris/bds.c", "c/gnss_converters/src/ubx_ephemeris/gal.c", "c/gnss_converters/src/ubx_ephemeris/glo.c"]}
{"id": "C37", "title": "SBAS messages are forwarded only when intact", "statement": "A raw SBAS message is forwarded only if its preamble is one of the three SBAS preambles and its 24-bit CRC over the first 226 bits matches.", "quantifier": "every 250-bit message", "why_tests_cant": "2^250 messages", "anchors": ["c/gnss_converters/src/ephemeris/sbas.c"]}
{"id": "C38", "title": "UBX inertial timestamps and ticks are consistent", "statement": "Odometry ticks decoded from ESF-MEAS are the sign/magnitude decoding of the wire field, the accumulated tick count equals the sum of the increments modulo wrap-around, and IMU message times advance by the sensor time difference modulo the counter wrap, restarting after gaps.", "quantifier": "every sequence of ESF messages", "why_tests_cant": "history with 24/32-bit counter wrap", "anchors": ["c/gnss_converters/src/ubx_sbp.c: handle_esf_meas, handle_esf_raw, convert24b"]}
{"id": "C39", "title": "iXCOM checksum table implements CRC-16/CCITT", "statement": "The table-driven iXCOM CRC equals the bitwise polynomial division by x^16+x^12+x^5+1 for every message, and decoders accept a message only if this CRC matches.", "quantifier": "every byte string", "why_tests_cant": "infinitely many messages", "anchors": ["c/libixcom/src/decode.c", "c/gnss_converters/src/ixcom_sbp.c"]}
{"id": "C40", "title": "iXCOM framing stays inside its buffer", "statement": "Reading an iXCOM frame never writes outside the 4096-byte frame buffer, whatever the length field says, and makes progress.", "quantifier": "every byte stream", "why_tests_cant": "all length fields", "anchors": ["c/gnss_converters/src/ixcom_sbp.c: read_ixcom_frame"]}
{"id": "C41", "title": "iXCOM time conversion", "statement": "The SBP time of week and fractional field of converted IMU data represent the iXCOM seconds and microseconds exactly to 1/256 ms, with the fraction below 256.", "quantifier": "every seconds/microseconds pair", "why_tests_cant": "boundaries", "anchors": ["c/gnss_converters/src/ixcom_sbp.c: convert_ixcom_to_sbp_tow"]}
{"id": "C42", "title": "NovAtel input: only CRC-valid messages are delivered", "statement": "Every message handed to the NovAtel callback is a contiguous piece of the stream with a valid header and a matching CRC-32.", "quantifier": "every byte stream and read pattern", "why_tests_cant": "arbitrary corruption", "anchors": ["c/nov2sbp/parser/parser.cc", "c/nov2sbp/parser/crc_checker.cc"]}
{"id": "C43", "title": "NovAtel input: delivery does not depend on read sizes", "statement": "The messages delivered depend only on the byte stream and not on how reads split it.", "quantifier": "every splitting", "why_tests_cant": "exponentially many splittings", "anchors": ["c/nov2sbp/parser/parser.cc"]}
{"id": "C44", "title": "NMEA sentences are well formed and bounded", "statement": "Every NMEA sentence produced is $...*HH CR LF where HH is the XOR of the characters between $ and *, and building a sentence never writes outside its buffer whatever the field values are.", "quantifier": "every field content and buffer size", "why_tests_cant": "all lengths", "anchors": ["c/gnss_converters/src/nmea.c: nmea_append_checksum, NMEA_SENTENCE_*"]}
{"id": "C45", "title": "NMEA: at most one sentence of each kind per epoch, from one epoch's data", "statement": "For every epoch each NMEA message kind is emitted at most once, and only when all the SBP messages it is built from carry that epoch's time of week.", "quantifier": "every order and interleaving of incoming SBP messages", "why_tests_cant": "message interleavings", "anchors": ["c/gnss_converters/src/sbp_nmea.c: nmea_ready, check_nmea_send, sbp2nmea"]}
{"id": "C46", "title": "NMEA output rate", "statement": "With a solution frequency f and a message rate r, a message is emitted at exactly the epochs that are multiples of r solution periods (to within half a period), i.e. once in every r consecutive epochs; rate 0 disables it.", "quantifier": "every time of week, rate and frequency", "why_tests_cant": "all combinations incl. week rollover", "anchors": ["c/gnss_converters/src/nmea.c: check_nmea_rate"]}
{"id": "C47", "title": "NMEA GSV and GSA lists are complete and bounded", "statement": "The GSV sentences for a constellation list every tracked satellite exactly once, 4 per sentence, numbered 1..total; GSA lists each satellite at most once and at most 12 per sentence.", "quantifier": "every observation set", "why_tests_cant": "all counts and duplicates", "anchors": ["c/gnss_converters/src/nmea.c: send_gsv, send_gsa"]}
{"id": "C48", "title": "NMEA source mode BEST never goes back", "statement": "In BEST mode the source starts as GNSS, becomes FUSED once inertial use is announced and stays FUSED.", "quantifier": "every message history", "why_tests_cant": "history property", "anchors": ["c/gnss_converters/src/sbp_nmea.c: update_mode"]}
{"id": "C49", "title": "NMEA UTC rounding is a valid time of day", "statement": "Rounding the UTC time to the printed precision always yields a valid calendar time of day, at most half a unit away.", "quantifier": "every UTC time", "why_tests_cant": "carries across seconds/minutes/hours/days", "anchors": ["c/gnss_converters/src/nmea.c: round_utc_time"]}
{"id": "C50", "title": "SBP observation sequence tracking in the NMEA converter", "statement": "Satellite lists are only built from complete observation sequences: a missed message invalidates the rest of that epoch, and the list never exceeds its capacity.", "quantifier": "every sequence of observation messages", "why_tests_cant": "histories", "anchors": ["c/gnss_converters/src/sbp_nmea.c: sbp2nmea_obs"]}
{"id": "C51", "title": "GLONASS frequency channels map consistently", "statement": "SBP frequency channel numbers 1..14 and RTCM 0..13 are mapped by inverse functions, with unknown mapped to unknown and out-of-range values treated as unknown.", "quantifier": "every channel value", "why_tests_cant": "joint property of both converter directions", "anchors": ["c/gnss_converters_extra/src/sbp_rtcm3.c: sbp_fcn_to_rtcm", "c/gnss_converters/src/rtcm3_utils.c: msm_get_glo_fcn", "c/gnss_converters/src/rtcm3_sbp.c"]}
{"id": "C52", "title": "Message buffers of the SBP text log forwarded from 1029 are bounded", "statement": "A 1029 text of any length produces a log message of at most 254 bytes which is the prefix 'RTCM: '-preceded text, never reading past the text.", "quantifier": "every text", "why_tests_cant": "all lengths and multi-byte characters", "anchors": ["c/gnss_converters/src/rtcm3_sbp.c: send_1029"]}
{"id": "C53", "title": "MSM headers are built within the cell grid", "statement": "Adding supported signals of valid satellites to an outgoing MSM header sets exactly their satellite and signal bits and never lets the satellite x signal grid exceed 64 cells; afterwards each satellite/signal pair gets its own cell below 64.", "quantifier": "every header state reachable while building and every satellite/signal added", "why_tests_cant": "the refusal conditions depend on every combination of masks already set; tests use a handful of satellites", "anchors": ["c/gnss_converters/src/rtcm3_utils.c: msm_add_to_header, msm_add_to_cell_mask"]}
{"id": "C54", "title": "Carrier phase and Doppler packing is accurate to half a fractional unit", "statement": "Packing a finite carrier phase or Doppler into integer + 1/256 parts yields a value within 1/512 (plus rounding error) of the input with the fraction in 0..255, or is refused exactly when the integer part does not fit.", "quantifier": "every IEEE double / float bit pattern", "why_tests_cant": "2^64 inputs, with rounding, carry and range boundaries", "anchors": ["c/gnss_converters/src/ubx_sbp.c: pack_carrier_phase, pack_doppler, fill_msg_obs"]}
{"id": "C55", "title": "NMEA sentences of a kind have a constant number of fields", "statement": "Every GGA, RMC, VTG, HDT, GLL, ZDA, GSA, GST, PUBX and THS sentence has the number of comma-separated fields its format prescribes, with or without a fix or valid time (GSV: four per satellite), so that a parser splitting on commas finds each value in its place.", "quantifier": "every history of SBP messages and every field content, valid or not", "why_tests_cant": "each combination of missing solution, velocity, time, age and satellites takes another path through the builders", "anchors": ["c/gnss_converters/src/nmea.c: send_gpgga, send_gprmc, send_gpvtg, send_gphdt, send_gpgll, send_gpzda, send_gsa_print, send_gpgst, nmea_gsv_print, send_pubx, send_gpths"]}
{"id": "C56", "title": "NMEA sentences say what the SBP messages said", "statement": "For every history of calls, each NMEA sentence delivered has exactly the fields of its kind, filled from the last SBP messages received: UTC time and date rounded to hundredths of a second; latitude and longitude as whole degrees and minutes below 60 that add up to the position to within half a hundred-millionth of a degree, with the right hemisphere letter, and all four empty without a fix; quality, status and mode letter matching the fix type; satellites, DOP (to the nearest tenth), height, geoid separation, age of corrections and base station exactly in the cases where they are defined and empty otherwise; speed and course from the velocity, the course within [0, 359.95) and equal to the direction of motion to within 0.051 degrees on the circle or else the last one above the speed threshold; heading within [0, 359.995) and equal to the yaw to within 0.0051 degrees on the circle. Only a sentence that fills its whole buffer may be cut short.", "quantifier": "all histories of messages in range, settings and observations; all formatting functions whose output contains no separator; all kinds of sentences (GSA/GSV lists: C47)", "why_tests_cant": "The field values depend on every combination of fix type, mode, velocity, thresholds, rounding carry and history of the remembered course; rounding to 60 minutes or 360 degrees occurs only at isolated values.", "anchors": ["c/gnss_converters/src/nmea.c: send_gpgga, send_gprmc, send_gpvtg, send_gphdt, send_gpths, send_gpgll, send_gpzda, send_gpgst, send_pubx, calc_cog_sog", "c/gnss_converters/src/sbp_nmea.c: sbp2nmea, sbp2nmea_msg_get"]}
{"id": "C57", "title": "An ephemeris that goes RTCM → SBP → RTCM keeps every integer", "statement": "Converting a decoded RTCM ephemeris (1019, 1020, 1042, 1045/1046) to the SBP ephemeris message and converting that SBP message back gives the RTCM message that was started from: every integer of orbit, clock, group delays, issue of data, accuracy index, health, reference times and week is the same, although in between they were scaled, multiplied by pi, and stored as IEEE single or double precision numbers.", "quantifier": "all RTCM ephemerides whose fields fit their bit widths; all libswiftnav scale constants close to 2^-k; all week resolvers that find the right week; all receiver times and leap second counts (GLONASS)", "why_tests_cant": "Each field ranges over up to 2^32 values and passes through several roundings; tests use a handful of recorded ephemerides, never the extremes of each field, week starts or day boundaries.", "anchors": ["c/gnss_converters/src/rtcm3_sbp_ephemeris.c: rtcm3_gps_eph_to_sbp, rtcm3_gal_eph_to_sbp, rtcm3_bds_eph_to_sbp, rtcm3_glo_eph_to_sbp", "c/gnss_converters_extra/src/sbp_rtcm3_ephemeris.c: sbp_to_rtcm3_gps_eph, sbp_to_rtcm3_gal_eph, sbp_to_rtcm3_bds_eph, sbp_to_rtcm3_glo_eph"]}
{"id": "C58", "title": "SBP ephemerides carry the physical values of the RTCM ephemerides", "statement": "Every SBP ephemeris made from an RTCM ephemeris carries the transmitted integers times the scale factors of the interface documents in SI units: exactly where the unit is a power of two (also after the single precision conversion), to within one part in 2^52 for angles (semicircles times pi), to within one part in 2^23 for the BeiDou group delays (0.1 ns); satellite numbers, codes, issue of data, health are those of the message; reference times are the same instants on the GPS time scale (BeiDou + 14 s with week carry, GLONASS the instant of the slot nearest to the receiver's time); the valid flag of GPS and QZSS says whether the low byte of IODC equals IODE.", "quantifier": "all RTCM ephemerides whose fields fit their bit widths, all receiver times, leap second counts up to an hour", "why_tests_cant": "The claim is about every value of some thirty fields of five constellations and the rounding of each; a wrong exponent of one field for one constellation passes unless the expected value was computed independently.", "anchors": ["c/gnss_converters/src/rtcm3_sbp_ephemeris.c: rtcm3_gps_eph_to_sbp, rtcm3_qzss_eph_to_sbp, rtcm3_gal_eph_to_sbp, rtcm3_bds_eph_to_sbp, rtcm3_glo_eph_to_sbp"]}
{"id": "C59", "title": "nov2sbp sends every range of a NovAtel RANGECMP log, at its time, exactly once", "statement": "For a RANGECMP log with at least one record, the converter sends ceil(n/14) SBP observation messages, numbered 0, 1, ... of that total, of at most 14 observations each, all with the time of week (to the millisecond) and week of the log; their concatenation is, in order, the records with a known signal, each with the satellite and code of its channel word, pseudorange in units of 2 cm, carrier phase and Doppler split in integer and 1/256 cycles, carrier to noise in 1/4 dB-Hz, lock time in ms, with the flags that say which measurements are valid.", "quantifier": "all RANGECMP logs (any number of records, any bytes), all header times, all converter states", "why_tests_cant": "The split, the packing of each of the field widths and the flags must hold for every record content and every count; tests replay one or two logs.", "anchors": ["c/nov2sbp/src/send_sbp_obs_messages.cc: send_sbp_obs_messages, pack_obs_content, pack_obs_header, nm_flags_to_sbp", "c/nov2sbp/src/nov2sbp.cc: write_sbp_range_cmp", "c/nov2sbp/src/swiftnav_conversion_helpers.cc: convert_rangecmp_record_to_mini_navmeas, convert_tracking_status_to_gnss_code, convert_tracking_status_to_navmeas_flags"]}
{"id": "C60", "title": "nov2sbp's time, position, velocity, attitude and ephemeris messages say what the NovAtel logs say", "statement": "Whenever nov2sbp sends a position or velocity, the latest GPS time it sent before is the week and time of week of the same log, and no time is sent twice in a row; a velocity has the fix mode of the last position if that has the same time of week, else it is invalid; latitude and longitude are sent unchanged, the height is above the ellipsoid, accuracies are the standard deviations in millimetres, horizontal speed and track are split into north and east velocity in mm/s to the nearest, attitudes are in micro-degrees to the nearest and valid exactly when the solution is good; GPS ephemerides carry the parameters of the log in the units of SBP.", "quantifier": "all sequences of NovAtel logs, all times and finite field values, any geoid model, any accurate sin and cos", "why_tests_cant": "Fix mode and time depend on the history of logs; the values on floating-point rounding of arbitrary inputs.", "anchors": ["c/nov2sbp/src/nov2sbp.cc: send_time_message, write_sbp_best_pos, write_sbp_best_vel, write_sbp_ins_att, write_sbp_gps_ephem", "c/nov2sbp/src/swiftnav_conversion_helpers.cc: convert_bestpos_to_pos_llh, convert_bestvel_to_vel_ned, convert_insatt_to_orient_euler, convert_gpsephem_to_ephemeris_gps, get_position_flags, float_to_u16, gps_time_compare"]}
{"id": "C61", "title": "nov2sbp's angular rates and accelerations are the IMU increments in the documented units", "statement": "For an IMU log (RAWIMUSX) without error, of an IMU type with documented units, in any history, nov2sbp sends the angular rate (micro-degrees per second) and the raw IMU message (SBP units of +-125 deg/s and +-8 g ranges) equal, per axis, to the logged increments times the unit of that IMU divided by the sampling interval, rounded to the nearest and saturated at the width of the field; the sampling interval is the time since the previous IMU log; the auxiliary message with type and range follows every second.", "quantifier": "all histories of logs, all IMU types of the table, all increments", "why_tests_cant": "Eighteen IMU types with different units and rates, arbitrary increments, and timing that depends on the log history; recorded tests contain one IMU.", "anchors": ["c/nov2sbp/src/nov2sbp.cc: write_sbp_raw_imu", "c/nov2sbp/src/swiftnav_conversion_helpers.cc: convert_rawimu_to_angular_rate, convert_rawimu_to_imu_raw, convert_rawimu_to_imu_aux, compute_imu_rate, get_imu_rate_from_type, get_imu_scale_gyro, get_imu_scale_accel"]}
{"id": "C62", "title": "Positions, velocities and attitudes made from UBX say what the receiver reported", "statement": "Every NAV-PVT (or, in high rate mode, every HNR-PVT) becomes exactly one SBP position with the same time of week, latitude, longitude and height (degrees, metres), accuracies in mm saturated at 65535, the number of satellites and the fix mode of the last NAV-PVT; every NAV-ATT (in high rate mode every HNR-PVT) becomes one attitude in micro-degrees with accuracies in degrees, roll and pitch of the last NAV-ATT; every NAV-VELECEF becomes one velocity in mm/s. NAV and HNR never both produce positions.", "quantifier": "all messages (all field values), all histories of frames of any number of converters in a process", "why_tests_cant": "Fix mode and attitude depend on what came before, also in other converters of the process; the scaling must hold for all values of each field.", "anchors": ["c/gnss_converters/src/ubx_sbp.c: fill_msg_pos_llh, fill_msg_pos_llh_hnr, fill_msg_orient_euler, fill_msg_vel_ecef, handle_hnr_pvt, handle_nav_att, handle_nav_pvt, handle_nav_velecef, pvt_state"]}
{"id": "C63", "title": "NAV-SAT is split without loss; MON-HW is forwarded byte for byte", "statement": "The SBP azimuth/elevation and measurement state messages sent for a NAV-SAT hold at most 63 and 85 satellites and, in order, every satellite of the NAV-SAT exactly once, with its number, signal, azimuth in units of 2 degrees, elevation and signal strength in units of 1/4 dB-Hz. A MON-HW frame of at most 253 bytes is forwarded unchanged, a longer one not at all, and nothing else is forwarded.", "quantifier": "all NAV-SAT messages with any number of satellites and any contents; all frames", "why_tests_cant": "The boundaries of the split (63, 85, 100 satellites) and extreme values of strength and azimuth do not occur in recordings.", "anchors": ["c/gnss_converters/src/ubx_sbp.c: handle_nav_sat, handle_mon_hw, fill_msg_fwd, convert_ubx_gnssid_sigid"]}
{"id": "C64", "title": "The GNSS time offset message gives the difference between GNSS and local time", "statement": "In any history, a NAV-STATUS with a valid fix and time is answered with one GNSS time offset message once the week is known, observations were received and an inertial time is known: weeks and milliseconds add up to the GNSS time of the NAV-STATUS (in the week next to the last observation) minus its local time (in the week next to the last inertial time), to the millisecond. Otherwise no offset is sent.", "quantifier": "all histories of frames, all 32-bit times, all week matchers that find the nearest week", "why_tests_cant": "Week boundaries of two independent time scales and the order of messages multiply; floating-point milliseconds must round correctly for all values.", "anchors": ["c/gnss_converters/src/ubx_sbp.c: handle_nav_status, handle_rxm_rawx"]}
{"id": "C65", "title": "Observations converted to MSM4/MSM5 and back come back as the same integers", "statement": "An SBP observation epoch becomes one MSM message per constellation present, of at most 678 bytes, which the decoder accepts. Converted back to SBP it yields for each observation either nothing, and that only if the receiver discards its constellation or signal or if its pseudorange is more than 146 m from another pseudorange of the satellite, or an observation of the same satellite and signal with exactly the same pseudorange, carrier phase, half-cycle and (MSM5) Doppler integers and lock class, and C/N0 (below 63.5 dB-Hz) within half a dB-Hz. Carrier phase and Doppler are lost only if the carrier frequency is unknown or the value is far (1020 m, 1.1 m/s) from the rest of the satellite; a value never comes back wrong. No step is undefined.", "quantifier": "all epochs of supported satellites and signals within the MSM grid limits, all values of all fields with a pseudorange up to 254 light-milliseconds and Doppler below 30 kHz, MSM4 and MSM5, all GLONASS channel maps of sender and receiver that do not contradict each other, all carrier frequencies between 1.1 and 1.7 GHz", "why_tests_cant": "Four floating-point conversions and two quantisations are chained; an observation that changes by one unit in the last place for one value out of 2^32 is not found by samples.", "anchors": ["c/gnss_converters_extra/src/sbp_rtcm3.c: sbp_buffer_to_msm, sbp_obs_to_msm_signal_data", "c/librtcm/src/encode.c: rtcm3_encode_msm4, rtcm3_encode_msm5", "c/librtcm/src/decode.c: rtcm3_decode_msm4, rtcm3_decode_msm5", "c/gnss_converters/src/rtcm3_sbp.c: add_msm_obs_to_buffer", "c/gnss_converters/src/rtcm3_utils.c: msm_signal_frequency"]}
{"id": "C66", "title": "Base position and antenna description survive SBP to RTCM and back", "statement": "After any sequence of configuration calls and messages, each SBP base position becomes one valid 1006 frame (and, once an antenna height or descriptors were configured, one 1008 and one 1033 frame) that the RTCM receiver accepts however the bytes are chunked. The 1006 carries the station number (low 12 bits of the sender), each coordinate to half a tenth of a millimetre, the constant indicators and the last accepted antenna height; the 1008/1033 carry the last configured descriptors cut to 31 characters. Received, the coordinates come back within 0.0501 mm. A received 1005 or 1006 gives coordinates that are the wire integers times 0.1 mm to 2 nm, and sent out again give exactly the same integers. Heights outside 0..6.5535 m are refused and change nothing.", "quantifier": "all histories of configuration calls, base positions, bias messages and other messages; all finite coordinates within the 38-bit field (13743.895 km), all finite heights, all descriptor strings, all 1005/1006 payloads accepted by the decoder (1006 of full length)", "why_tests_cant": "Every value passes through IEEE double multiplications and roundings and a 38-bit field, and the configuration in force depends on the whole history; samples do not show that no value is off by one unit.", "anchors": ["c/gnss_converters_extra/src/sbp_rtcm3.c: sbp2rtcm_base_pos_ecef_cb, sbp_to_rtcm3_1005, sbp_to_rtcm3_1006, generate_rtcm3_1033, rtcm3_1033_to_1008, sbp2rtcm_set_ant_height, sbp2rtcm_set_rcv_ant_descriptors", "c/librtcm/src/encode.c: rtcm3_encode_1005_base, rtcm3_encode_1006", "c/librtcm/src/decode.c: rtcm3_decode_1005, rtcm3_decode_1006", "c/gnss_converters/src/rtcm3_sbp.c: rtcm3_1005_to_sbp, rtcm3_1006_to_sbp"]}
{"id": "C67", "title": "GLONASS biases survive both directions, and the receiver-name guess never overrides a recent 1230", "statement": "SBP GLONASS biases become one valid 1230 frame that, received, gives exactly the announced biases (others zero) and the low four mask bits; a received 1230 that is not aligned gives exactly its integers and sent out again the same; an aligned one gives zero biases. A 1033 received at a known time gives the tabulated biases of the first table row one of whose names occurs in the receiver descriptor (none: zero, mask 0) exactly if no readable 1230 arrived at a known time within the last 120 s, whatever else was received before; otherwise nothing is sent. No payload makes the conversion fail.", "quantifier": "all 16-bit biases and masks, all histories of calls on the sending side, all 1230 and 1033 payloads accepted by the decoder, all histories of received payloads (any bytes) with any times", "why_tests_cant": "65536 values per bias pass through two double conversions; the suppression of the table depends on the whole history of received messages and times.", "anchors": ["c/gnss_converters_extra/src/sbp_rtcm3.c: sbp2rtcm_glo_biases_cb, sbp_to_rtcm3_1230", "c/librtcm/src/encode.c: rtcm3_encode_1230", "c/librtcm/src/decode.c: rtcm3_decode_1230, rtcm3_decode_1033", "c/gnss_converters/src/rtcm3_sbp.c: rtcm3_1230_to_sbp, rtcm3_1033_to_sbp, no_1230_received, rtcm2sbp_decode_payload", "c/gnss_converters/src/rtcm3_sbp_internal.h"]}
{"id": "C68", "title": "SBP observations sent as legacy messages 1004/1012 arrive unchanged", "statement": "An SBP observation epoch sent in legacy mode becomes at most one 1004 frame (GPS) and one 1012 frame (GLONASS); a receiver gets exactly these frames however the bytes are split, accepts them, and reconstructs for every satellite whose first-signal phase is valid and unambiguous the same pseudorange integer (GPS with whole light-milliseconds ending in 5: within one 2 cm unit), the same carrier phase integers up to a multiple of 1500 cycles (none if phase and pseudorange agree within 262 m) and the same C/N0, on both signals; time, station and sync flag are those of the epoch; nothing else comes out, and nothing is undefined.", "quantifier": "all epochs of up to 31 satellites per constellation with pseudoranges up to 255 light-ms, all carrier phases within 1000 km of the pseudorange, all GLONASS channels, all leap second offsets, all splits of the byte stream, any machine behaviour for out-of-range conversions", "why_tests_cant": "pseudorange and phase pass through a chain of some twenty double operations in each direction; 2^32 pseudoranges times 2^40 phases times 17 carriers must round back to the same integers.", "anchors": ["c/gnss_converters_extra/src/sbp_rtcm3.c: sbp_buffer_to_legacy_rtcm3, sbp_obs_to_freq_data, compute_glo_tod_ms", "c/librtcm/src/encode.c: rtcm3_encode_1004, rtcm3_encode_1012, encode_diff_phaserange, to_lock_ind", "c/librtcm/src/decode.c: rtcm3_decode_1004_bitstream, rtcm3_decode_1012_bitstream", "c/gnss_converters/src/rtcm3_sbp.c: add_obs_to_buffer"]}
{"id": "C69", "title": "OSR and SSR messages pass through the RTCM tunnel unchanged", "statement": "Every OSR or SSR SBP message given to the SBP-to-RTCM converter becomes one frame; fed to the RTCM-to-SBP converter, in any chunks, whether or not the time is known and whatever was received before, it comes out as the same SBP message (type, sender, payload), in order, exactly if libsbp accepts it.", "quantifier": "all sequences of messages of the seven tunnelled types, all senders, all payloads of 0..255 bytes, all splits of the byte stream, all receiver states", "why_tests_cant": "payload length is misaligned by the 12+16+16+8 bit header in a bit-packed frame: 256 lengths times all payloads, and all chunkings.", "anchors": ["c/gnss_converters_extra/src/sbp_rtcm3.c: sbp2rtcm_sbp_osr_cb .. sbp2rtcm_sbp_ssr_stec_correction_cb", "c/gnss_converters_extra/src/sbp_conv.c: sbp_conv", "c/librtcm/src/encode.c: rtcm3_encode_4062", "c/librtcm/src/decode.c: rtcm3_decode_4062", "c/gnss_converters/src/rtcm3_sbp.c: rtcm2sbp_decode_payload"]}
{"id": "C70", "title": "Log messages arrive as log messages with their text", "statement": "Every SBP log message with text becomes one 1029 frame which the other converter turns, in its place in the stream, into one log message of the same station with 'RTCM: ' and the text (cut at 247/248 bytes), of the same level; the 1029 message announces its number of characters.", "quantifier": "all interleavings of log and tunnelled messages, all texts up to 254 bytes, all splits and receiver states", "why_tests_cant": "the cut depends on the bytes at the end of the text; order and chunking range over all streams.", "anchors": ["c/gnss_converters_extra/src/sbp_rtcm3.c: sbp2rtcm_sbp_log_cb", "c/gnss_converters/src/rtcm3_sbp.c: send_1029, send_sbp_log_message"]}
{"id": "C71", "title": "Unsupported MSM1-3 messages cause exactly one warning", "statement": "Over the life of a converter at most one warning about MSM1-3 is emitted; the first MSM1-3 message received causes it, with the sender of its station.", "quantifier": "all histories of received payloads and times", "why_tests_cant": "a history property: no bound on the number and kind of messages.", "anchors": ["c/gnss_converters/src/rtcm3_sbp.c: send_MSM_warning, rtcm2sbp_decode_payload"]}
{"id": "C72", "title": "Message 4075: exactly the intact SBAS frames are forwarded", "statement": "From a 4075 message exactly the SBAS frames of PRN 120..158 whose preamble and CRC are right are forwarded, in order, with their time, type and data bits; nothing outside the message is read.", "quantifier": "all messages of up to 63 frames of any system, size and content; all histories of payloads; all memory contents behind the payload", "why_tests_cant": "CRC validity and lengths range over all bit strings; reads past the payload show only under memory instrumentation and only for particular inputs.", "anchors": ["c/librtcm/src/decode.c: rtcm3_decode_4075", "c/gnss_converters/src/rtcm3_sbp_ephemeris.c: handle_ndf_frame", "c/gnss_converters/src/ephemeris/sbas.c: sbas_decode_subframe"]}
{"id": "C73", "title": "Legacy observations do not mix with MSM, repeated messages are ignored, the legacy stream resumes", "statement": "A legacy observation message (1002, 1004, 1010, 1012) dated less than 5 s after the last MSM message has no effect on any observation output, then or later; neither has a legacy message not later than an earlier one of the same system, nor a repeated MSM message; observation epochs are emitted in time order; 5 s after the last MSM message a newer legacy message is used completely. A wrong time in one message does not block later right ones.", "quantifier": "all histories of payloads before, between and after; all receiver times; all decoders of the payloads; all converter states", "why_tests_cant": "the effect on all later outputs of an arbitrary continuation must be compared; histories are unbounded.", "anchors": ["c/gnss_converters/src/rtcm3_sbp.c: is_msm_active, add_gps_obs_to_buffer, add_glo_obs_to_buffer, add_msm_obs_to_buffer, compute_gps_message_time, compute_glo_time"]}
{"id": "C74", "title": "ST message 999: firmware version, firmware configuration and RF status", "statement": "The version string and the configuration string of a message 999:25 / 999:2 arrive in the caller's array as they were sent, NUL-terminated, without a byte written outside the array or read outside the message; an RF status message 999:24 is decoded when its length matches its content.", "quantifier": "all payloads, all strings, all array sizes, all status masks and lengths", "why_tests_cant": "string lengths, array sizes and optional blocks combine without bound; the tests contain one version string, one configuration and only rejected RF status messages.", "anchors": ["c/librtcm/src/sta_decode.c: sta_decode_rcc_config, sta_decode_fwver, sta_decode_rfstatus", "c/librtcm/src/decode_helpers.h: GET_STR"]}
{"id": "C75", "title": "sbp_conv returns the RTCM bytes of the messages passed in, complete and in order", "statement": "Over any sequence of calls the bytes returned by sbp_conv are exactly the bytes of the RTCM frames of the SBP messages passed in, in order; a call with enough room returns all frames of its message; the bytes can be fed to the RTCM receiver in any split and yield the observations again.", "quantifier": "all sequences of calls, senders, message types, payloads and output buffer sizes; all behaviours of the message callbacks", "why_tests_cant": "the content of the internal FIFO depends on the whole history of calls; there is no test of sbp_conv.", "anchors": ["c/gnss_converters_extra/src/sbp_conv.c: sbp_conv, sbp_conv_cb, sbp_conv_new", "c/gnss_converters_extra/src/sbp_rtcm3.c: sbp2rtcm_sbp_obs_cb, sbp_buffer_to_msm"]}
{"id": "C76", "title": "An SBP ephemeris sent over RTCM arrives as the same ephemeris", "statement": "For every SBP ephemeris whose values fit the fields of the RTCM message, the converter writes one valid frame, and a receiver that reads it in any split sends one SBP ephemeris with the same satellite, times, health, accuracy and issue of data and with every orbit and clock parameter within half a unit of the field's resolution; an ephemeris that came over RTCM is sent on as the same message.", "quantifier": "all finite parameter values in the field ranges, all satellites, weeks, reference times, all splits of the byte stream, all receiver states of the stated kind", "why_tests_cant": "about twenty floating-point parameters per message, each with its own scale and rounding; the repository's test compares a handful of recorded ephemerides.", "anchors": ["c/gnss_converters_extra/src/sbp_rtcm3.c: sbp2rtcm_sbp_gps_eph_cb, sbp2rtcm_sbp_glo_eph_cb, sbp2rtcm_sbp_bds_eph_cb, sbp2rtcm_sbp_gal_eph_cb", "c/gnss_converters_extra/src/sbp_rtcm3_ephemeris.c", "c/gnss_converters/src/rtcm3_sbp_ephemeris.c", "c/librtcm/src/eph_encode.c", "c/librtcm/src/eph_decode.c"]}
{"id": "C77", "title": "RTCM messages are read from and written to the bit positions of the standard", "statement": "For every payload, the decoder of each ephemeris, station, text, bias, Swift and legacy observation message answers: not a message when too short to hold one, another message when the message number differs, invalid when shorter than the layout, and otherwise the message whose fields are the two's-complement, sign-magnitude or unsigned numbers found at the offsets the standard's field table gives; and every encodable message is written so that the same table reads it back.", "quantifier": "all payloads (byte strings of any length and content) and all encodable messages", "why_tests_cant": "A swapped pair of equally wide fields in encoder and decoder survives every round-trip test; tests with recorded frames exercise a few field values and no truncation point.", "anchors": ["c/librtcm/src/eph_decode.c", "c/librtcm/src/eph_encode.c", "c/librtcm/src/decode.c: rtcm3_decode_1001..1004, 1005-1008, 1010, 1012, 1029, 1033, 1230, 4062", "c/librtcm/src/encode.c"]}
{"id": "C78", "title": "Received MSM observations carry the physical values of the message, with the user's options applied", "statement": "For every MSM4, MSM5, MSM6 or MSM7 payload laid out as in the standard, from any sender, each cell of a known, accepted signal with a valid pseudorange becomes exactly one SBP observation of that satellite and signal: pseudorange (rough + fine, in metres, plus the signal bias and the GLONASS bias per channel number) to within 1 cm + 0.1 mm, carrier phase in cycles of the right carrier frequency (plus the phase bias) to 1/512 cycle + 0.0001, Doppler with the opposite sign of the range rate to 1/512 Hz, C/N0 and lock time in SBP's units, and the validity and half-cycle flags set exactly when the message has the value; cells of masked constellations, discarded signals or invalid ranges give nothing.", "quantifier": "all MSM4-MSM7 payloads with any masks and field contents SBP can represent, all receiver channel maps, masks and finite bias options, all carrier frequencies in 1.1-1.7 GHz", "why_tests_cant": "The values go through double (and float) arithmetic with resolution-dependent scalings; recorded files exercise a few cells per type, mostly MSM4/5, no bias options, and hardly ever invalid or extreme fields.", "anchors": ["c/gnss_converters/src/rtcm3_sbp.c: add_msm_obs_to_buffer", "c/gnss_converters/src/options.c: msm_glo_fcn_bias", "c/librtcm/src/decode.c: rtcm3_decode_msm4..7", "c/gnss_converters/src/rtcm3_utils.c: msm_get_glo_fcn"]}
{"id": "C79", "title": "The command-line options of rtcm3tosbp take effect", "statement": "For every command line of rtcm3tosbp made of constellation flags, -s -o -v and bias lists -b, -c, -l in any number and order, with values written separately, attached or after '=', the program goes on with exactly the named constellations disabled, and each bias equal to the last value given for that signal (0 if none).", "quantifier": "all command lines (any number and order of options, any lists of code:bias entries)", "why_tests_cant": "The space of option orders and value spellings is unbounded, and a mistake shows only as a silently different configuration.", "anchors": ["c/rtcm3tosbp/src/rtcm3tosbp.c: rtcm3tosbp_main, parse_biases, parse_glonass_code_biases, parse_glonass_phase_biases", "c/gnss_converters/src/options.c"]}
{"id": "C80", "title": "Received legacy observations carry the transmitted physical values", "statement": "For every 1002, 1004, 1010 or 1012 payload from any sender, rtcm3tosbp reports a signal of a satellite exactly when the payload gives its pseudorange, its carrier phase and (GLONASS) its channel and the satellite has an SBP number; the reported pseudorange, carrier phase, C/N0, lock time class, satellite and signal numbers are those the fields mean (2 cm and 1/256 cycle resolution), with the configured signal bias added to the range.", "quantifier": "all header and satellite field values, any number of satellites up to 31, all bias options", "why_tests_cant": "The value ranges of the fields multiply to far more combinations than can be run, and wrong units, signs or 'not available' patterns show only for some of them.", "anchors": ["c/librtcm/src/decode.c: rtcm3_decode_1002_bitstream, rtcm3_decode_1004_bitstream, rtcm3_decode_1010_bitstream, rtcm3_decode_1012_bitstream, construct_L1_code, construct_L1_phase, construct_L2_code, construct_L2_phase, from_lock_ind", "c/gnss_converters/src/rtcm3_sbp.c: add_obs_to_buffer, get_gps_sbp_code, get_glo_sbp_code"]}
{"id": "C81", "title": "A complete epoch received is reported as exactly one SBP epoch, with the transmitted values", "statement": "A byte stream carries complete epochs of observation messages: MSM4-MSM7 of GPS, GLONASS, Galileo and BeiDou in any order and number (up to 210 cells), the last one (or a later unconverted MSM message) with the multiple message bit clear, or one GPS and/or one GLONASS legacy message; any other messages may lie in between, also GLONASS ephemerides that announce the channel of a satellite, and garbage between the frames. However the stream is cut into reads, rtcm3tosbp sends for every epoch exactly one numbered sequence of SBP observation messages with the epoch's GPS time and the station's sender id, containing the observations of all its messages in order, each with the physical values of its fields, GLONASS phases with the channels known at that moment; and sends nothing else about observations.", "quantifier": "all sequences of epochs, all messages and interleavings in them, all field values, all chunkings, all arrival times", "why_tests_cant": "The result depends on every message before (buffer, channel map, times of the last messages); a mistake in the hand-over between framing, dispatch, dating, conversion and buffering shows only for particular sequences.", "anchors": ["c/gnss_converters/src/rtcm3_sbp.c: rtcm2sbp_process, rtcm2sbp_decode_payload, add_msm_obs_to_buffer, add_gps_obs_to_buffer, add_glo_obs_to_buffer, add_obs_to_buffer, send_observations, rtcm2sbp_set_glo_fcn", "c/librtcm/src/decode.c"]}
{"id": "C82", "title": "An SBP observation epoch sent through RTCM arrives as exactly one SBP epoch", "statement": "Give the messages of a complete SBP observation epoch to sbp2rtcm (MSM4 or MSM5) and its output, in pieces of any size and with garbage in between, to rtcm3tosbp: exactly one numbered sequence of SBP observation messages comes out, with the time of the epoch, the station number of the sender, and the observations of the epoch in another order, each with the values C65 promises; QZSS observations are not converted. A stream of epochs arrives as this stream, epoch for epoch, nothing lost, merged or added.", "quantifier": "all epochs of up to 210 valid observations of supported signals, all histories of both converters, all configurations, all chunkings, all reference times in step with the epochs", "why_tests_cant": "The claim composes two programs with state (buffer, last times, channel map, frame splitter) over any sequence of epochs; every field of every observation goes through scaling in both directions.", "anchors": ["c/gnss_converters_extra/src/sbp_rtcm3.c: sbp2rtcm_sbp_obs_cb, sbp_buffer_to_rtcm3, sbp_buffer_to_msm", "c/gnss_converters/src/rtcm3_sbp.c: rtcm2sbp_process, add_msm_obs_to_buffer, send_observations", "c/librtcm/src/encode.c", "c/librtcm/src/decode.c"]}
{"id": "C83", "title": "rtcm3tosbp -o keeps its own time: a stream of epochs is received completely with no outside time after the start date", "statement": "With the option -o rtcm3tosbp takes its time from the SBP observations it sends. Given a start date shortly before the first epoch, a stream of epochs sent by sbp2rtcm arrives epoch for epoch, each with its own week and time of week, over any number of week ends and whatever the reads and the garbage in between, as long as each epoch is in step with the one before (for instance at most 15 s later). The program's time is then the time of the last epoch.", "quantifier": "all streams of sendable epochs of any length, all chunkings, all start dates in step with the first epoch, all constant leap second offsets of 0 to 30 s", "why_tests_cant": "The time is fed back from output to input: one wrong week or a rejected epoch would spoil everything after it, after arbitrarily long streams and at week ends.", "anchors": ["c/rtcm3tosbp/src/rtcm3tosbp.c: update_obs_time, cb_rtcm_to_sbp, main", "c/gnss_converters/src/rtcm3_sbp.c: rtcm2sbp_init, rtcm2sbp_process, compute_gps_time, compute_glo_time"]}
{"id": "C84", "title": "sbp2rtcm and rtcm3tosbp as one relay for a mixed history of messages", "statement": "Give any history of SBP messages that sbp2rtcm converts - observations, base positions, GLONASS biases, GPS, BeiDou, Galileo and GLONASS ephemerides, OSR, SSR and log messages of any senders, with other messages in between - to sbp2rtcm, and its output, in pieces of any size and with garbage in between, to rtcm3tosbp: out come, in the order in which the epochs were completed and the other messages given, exactly the corresponding SBP messages - epochs as C82 promises, positions to half a tenth of a millimetre, biases as announced, ephemerides within half a unit of their RTCM fields, tunnelled messages unchanged, texts as logs - and nothing else. With rtcm3tosbp -o this needs no time from outside after a start date shortly before the first epoch of a steady stream.", "quantifier": "all histories of any length whose messages are representable in RTCM, all starting states of the sender's epoch assembly, all chunkings, all receiver times in step with the epochs", "why_tests_cant": "Messages of every kind share one sender field, one buffer, one frame parser and one receiver state; the claim is about every interleaving of them and every value in them.", "anchors": ["c/sbp2rtcm/src/sbp2rtcm.c: main", "c/gnss_converters_extra/src/sbp_rtcm3.c: sbp2rtcm_sbp_obs_cb, sbp2rtcm_base_pos_ecef_cb, sbp2rtcm_glo_biases_cb, sbp2rtcm_sbp_log_cb, sbp2rtcm_sbp_ssr_*_cb, ephemeris callbacks", "c/gnss_converters/src/rtcm3_sbp.c: rtcm2sbp_process"]}
{"id": "C85", "title": "every observation message rtcm3tosbp sends is well-formed, whatever its input", "statement": "Whatever bytes rtcm3tosbp reads - valid messages, corrupted ones that pass the CRC, messages of unknown numbers, in any order - every SBP observation message it sends has a base-station sender (0xF080 to 0xFFFF; or 0 and no observations), a week and a time of week in range, a message index below the message count (1 to 15), at most 14 observations and exactly 14 in all but the last message; every observation has a pseudorange, has zero phase and no half-cycle flag without the phase flag, zero Doppler without the Doppler flag, fields in the ranges of their types, a lock indicator from 0 to 15, and a satellite number that exists in the constellation of its signal; masked constellations appear only through legacy messages.", "quantifier": "all byte streams and chunkings, all sequences of reference times, all bias options, constellation masks and carrier tables, all behaviours of the other message types", "why_tests_cant": "The claim is about every possible input, including adversarial and corrupted messages, and about every order in which messages of several stations and constellations share one buffer.", "anchors": ["c/gnss_converters/src/rtcm3_sbp.c: add_obs_to_buffer, add_msm_obs_to_buffer, send_observations, rtcm2sbp_process", "c/librtcm/src/decode.c: rtcm3_decode_msm_internal, rtcm3_decode_1002_bitstream, rtcm3_decode_1004_bitstream"]}
{"id": "C86", "title": "relaying an already relayed epoch changes nothing", "statement": "If sbp2rtcm and rtcm3tosbp relay an SBP epoch whose observations MSM can carry without loss (well-formed, whole dB-Hz, values close to each other), exactly these observations come out, with the same time: no value, flag, lock indicator or signal changes, none is lost and none added. And what arrives of any epoch of close values is such an epoch: relaying it a second time, through another receiver with its own history, delivers the same observations, the same time and the same sender.", "quantifier": "all epochs, histories of both receivers, GLONASS channel maps that agree, message types MSM4 and MSM5, leap seconds, carrier tables, masks and reference times in step", "why_tests_cant": "The fixed-point property is about all combinations of field values, flags and satellites, and needs that every rounding step of both directions is idempotent in every state of the receiver.", "anchors": ["c/gnss_converters_extra/src/sbp_rtcm3.c: sbp2rtcm_sbp_obs_cb, sbp_buffer_to_msm", "c/gnss_converters/src/rtcm3_sbp.c: add_msm_obs_to_buffer, send_observations", "c/librtcm/src/encode.c: rtcm3_encode_msm_internal", "c/librtcm/src/decode.c: rtcm3_decode_msm_internal"]}
{"id": "C87", "title": "the conversions of rtcm3tosbp do not interfere with each other", "statement": "In rtcm3tosbp the SBP observation messages depend only on the RTCM messages 1002, 1004, 1010, 1012, 1020 and those numbered 1070 to 1229 and on the time at each of them: adding, dropping or reordering any other messages in between changes no observation message. Conversely the base positions, code-phase biases, tunnelled SBP messages, logs, SBAS frames, warnings and ephemerides are exactly those that their own conversions make of the stream, whatever observations it contains; the 1230 timeout and the once-only MSM warning are not affected by the other messages.", "quantifier": "all streams of payloads with any times, all options, carrier tables, masks, and all behaviours of the remaining conversions", "why_tests_cant": "Non-interference compares all pairs of streams that differ in unrelated messages, in all interleavings; a test compares a few.", "anchors": ["c/gnss_converters/src/rtcm3_sbp.c: rtcm2sbp_decode_payload, add_msm_obs_to_buffer, add_obs_to_buffer, send_observations, send_MSM_warning, no_1230_received"]}
{"id": "C88", "title": "SSR corrections of different constellations and kinds do not interfere", "statement": "What the separate SSR orbit and clock messages of one constellation make rtcm3tosbp emit depends only on these messages and the receiver's time and leap seconds at each of them: messages of other constellations, combined corrections, biases and any other payloads in between, lost, added or reordered, change nothing. Each combined, code bias or phase bias message is converted as if it were the only message ever received.", "quantifier": "all streams of payloads with any times for which the conversion is defined, all constellations", "why_tests_cant": "Non-interference compares all pairs of streams that differ in unrelated messages; a test compares a few.", "anchors": ["c/gnss_converters/src/rtcm3_sbp.c: rtcm2sbp_decode_payload", "c/gnss_converters/src/rtcm3_sbp_ssr.c: rtcm3_ssr_separate_orbit_clock_to_sbp, rtcm3_ssr_orbit_clock_to_sbp, rtcm3_ssr_code_bias_to_sbp, rtcm3_ssr_phase_bias_to_sbp", "c/librtcm/src/ssr_decode.c"]}
{"id": "C89", "title": "the conversions of sbp2rtcm do not interfere with each other", "statement": "In sbp2rtcm the frames written for a message that is not an observation message (base position, GLONASS biases, ephemerides, OSR, SSR and log messages) are the same in any history as when the message is given alone. The frames written at the observation messages do not change when ephemerides, OSR, SSR and unconverted messages in between are dropped, nor, if all messages have one sender, when base positions, biases and logs are dropped too.", "quantifier": "all histories of SBP messages that are converted without undefined behaviour, from any state, with any carrier and code tables", "why_tests_cant": "Non-interference compares all pairs of histories that differ in unrelated messages, from all states; a test compares a few.", "anchors": ["c/sbp2rtcm/src/sbp2rtcm.c", "c/gnss_converters_extra/src/sbp_rtcm3.c: sbp2rtcm_sbp_obs_cb, sbp2rtcm_base_pos_ecef_cb, sbp2rtcm_glo_biases_cb, sbp2rtcm_sbp_log_cb"]}
