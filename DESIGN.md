# Formal model of swift-nav/gnss-converters in Rocq (Coq 8.16.1)

## Conventions of the model

* Bytes, words and counters are `Z` (with explicit `mod 2^n` where C wraps); byte strings are `list Z`; bit
  strings are `list bool`, most significant bit first.  Lengths that only drive recursion are `nat`.
* A C function that writes through a pointer returns the new value.  Loops are structural recursion, or recursion on
  explicit fuel with a distinct out-of-fuel value that the theorems exclude.
* Undefined behaviour (out-of-bounds array access, failed assert, division by zero) is a distinct outcome of
  the model, never silently totalised.
* Every definition cites the file and lines in `/repo` it models, and says where it simplifies.
* `theories/` has model files (`*_model.v`, `UbxMsg_model.v` is generated by `tools/gen_ubx.py`), specification vocabulary (`*_spec.v`:
  what the English words mean, written without the model's helpers), proof files (`*_proofs.v`) and `Properties_*.v` files with the
  theorems of MANIFEST.json, the `Example`s beside them that exhibit concrete cases meeting the hypotheses, and `Print Assumptions`.
* Theorems named `*_refuted` show with a concrete witness that the code violates the property at full strength;
  the companion theorem (often with the suffix `_partial`) proves the strongest version we could establish.

## Per property: model and proof
| id | model files | proof |
|---|---|---|
| C01-C04 | RtcmFraming_model (rtcm2sbp_process as a step on FIFO and chunk), Crc | scanning `a++b` = scanning `a`, keeping the rest, appending `b`; induction over chunks; CRC-24Q as polynomial remainder |
| C05 | RtcmFrameOut_model | composition of the writer with the reader of C02/C03 |
| C06 | Bits_model (bits.c byte-exact), Bitstring | induction over the bit loop |
| C07-C09, C16 | RtcmStation_model, Bitstream_model | printer/parser lemmas per message |
| C10 | RtcmLegacy_model | printer/parser lemmas; integer quanta for ranges |
| C11-C13 | RtcmMsm_model, RtcmMsm_spec | masks as lists of positions; induction over satellites, signals, cells |
| C14 | all RTCM decoders | the bit reader fails as soon as a field is incomplete; induction over the fields |
| C15 | RtcmEph_model | printer/parser lemmas |
| C17, C18, C23 | ObsBuffer_model (observation buffer, dispatch, gating), ObsBuffer_spec | invariants over histories of messages |
| C19-C21 | Time_model | integer milliseconds, lia |
| C22 | TimeTruth_model (any number of threads, compare-and-swap) | invariant over all schedules |
| C24, C25 | Ssr_model | parser lemmas; invariant of the cache |
| C26 | Tables_model (IEEE single precision) | real-number error bounds (Flocq) and computation on the finite tables |
| C27, C51 | Signals_model | computation on finite domains lifted to universal statements |
| C28-C30, C53, C54 | Sbp2Rtcm_model, Sbp2Msm_model, Double_model | invariants over histories; Flocq error bounds |
| C31, C32 | UbxFraming_model | induction over the reads of a stream |
| C33, C34 | UbxMsg_model (generated), UbxVar_model | printer/parser lemmas |
| C35, C54 | UbxObs_model (IEEE double) | list splitting; Flocq error bounds |
| C36, C37 | Subframes_model | invariants over histories of subframes; CRC-24Q linearity |
| C38 | Esf_model (IEEE double/single) | invariants over histories; Flocq error bounds |
| C39-C41 | Ixcom_model | CRC table against polynomial division by linearity; induction over the stream |
| C42, C43 | Novatel_model | induction over reads |
| C44-C50, C55, C56 | NmeaText_model, NmeaTime_model, Nmea_model, NmeaState_model | invariants over histories of calls; text lemmas; Flocq error bounds |
| C52 | Log1029_model | list lemmas |
| C57, C58 | SbpEph_model (IEEE double/single), SbpEph_spec | relative-error calculus over Flocq (Near_proofs), a bound on pi from Machin's formula (Pi_proofs) |
| C59-C61 | NovSbp_model (converter state, IEEE double/single), NovSbp_spec | invariants over histories of logs; exact and relative-error calculus (Exact_proofs, NovVal_proofs, NovImu_proofs) |
| C62-C64 | UbxNav_model (converters sharing the static state; IEEE double/single), UbxNav_spec | induction over histories of events; error calculus; list induction for the split |
| C65 | MsmVal_model (MSM struct, encoder, decoder and the SBP conversion in IEEE double), MsmVal_spec (metres, integers) | exact and error calculus per cell; C29's placement theorem; bit-level round trip |
| C66 | StaConv_model (SBP station messages both ways in IEEE double, configuration state), StaConv_spec (metres, tenths of mm, configuration after a history) | invariant over histories; error calculus of the roundings; bit-level round trips and framing (C05, C07) |
| C67 | StaConv_model (1230, 1033 table, 120 s suppression), StaConv_spec (table in centimetres, substring relation) | exact bias round trip by error calculus; table rows compared by computation; induction over the received history |
| C68 | LegVal_model (legacy 1004/1012 output, decoder and conversion back in IEEE double), LegVal_spec (metres, integers; satellites of a message) | absolute-error calculus (Abs_proofs) for ranges and phases, computation over the 256 lock and C/N0 bytes, list induction for the satellite table, bit-level round trip and framing |
| C69 | Tunnel_model (callbacks of the tunnelled types, 4062 receive path), Tunnel_spec (messages) | bit-level round trip, framing (C03, C05), induction over the message list; libsbp's decoder verdict is a parameter |
| C70 | Tunnel_model (log callback, 1029 receive path, send_1029) | as C69, with the cut of C52 |
| C71 | Tunnel_model (send_MSM_warning) | invariant over histories of payloads |
| C72 | Tunnel_model (4075 decoder on the whole receive buffer, handle_ndf_frame), Tunnel_spec (layout, GF(2) remainder) | bit-level decoding lemma for lists of frames; C37's SBAS check |
| C73 | ObsBuffer_model (is_msm_active, duplicate check), ObsExcl_spec (instants from times of week/day, what the user sees) | simulation: a refused message leaves the observation part of the state as it was, so removing it from any history changes no output; invariants on the remembered times ; Properties_timed (TimeD_model): the same comparisons, and the C20/C21 resolution, in IEEE doubles from any double reference: error calculus `rep` for whole-millisecond times |
| C74 | Sta_model (sta_decode.c, memory with bounds), Bits_model | induction over the copied characters; the RF status decoder by following the position: each check keeps it strictly below the length, the last one demands equality |
| C75 | Conv_model (FIFO of 2048 bytes; the SBP callbacks are a parameter), its instance with Sbp2Rtcm, Sbp2Msm, MsmVal, Tunnel models | invariant: returned bytes ++ FIFO = written bytes while the backlog fits; frame sizes from the mask counts; composition with C65 and C03 |
| C76 | EphOut_model (sender callbacks and receiver dispatch, over SbpEph, RtcmEph, RtcmFrameOut, RtcmFraming models), EphOut_spec (field ranges and half units, in reals) | absolute-error calculus (Abs_proofs) gives each integer field; composition with C15, C58 and C03; every ephemeris the decoders accept is shown to meet the hypotheses (relay theorems) |
| C77 | RtcmLayout_spec (RTCM 10403 field tables: DF number and width; readers of bits at an offset), over the existing decoder/encoder models RtcmEph, RtcmStation, RtcmLegacy | the decoder is stepped through symbolically, each read shown equal to the table's bits or to a rejection; encoders by composition with the round-trip lemmas of C07-C09, C15, C16 |
| C78 | Options_model (options.c), MsmVal_model's cell loop with biases as parameters; MsmRx_spec: the fields of MsmWire_spec as metres, cycles, Hz, over the reals | error calculus `ab` over IEEE doubles (and binary32 products of the channel biases) per cell, then the cell list; `ordinary` gives a checkable sufficient condition; counterexamples for SBP overflow and satellite information 15 |
| C79 | Cli_model: getopt, strtok, the option switch and the parsers of rtcm3tosbp.c; sscanf number reading is a parameter | induction over the option list with the configuration as invariant; counterexamples for -S (declared with a value), negative codes, unreadable entries |
| C80 | LegRx_model (with LegVal_model): 1002/1004/1010/1012 decoders and add_obs_to_buffer in IEEE doubles, signal biases included; LegRx_spec: layout and meaning of the fields | bit layout by list induction, error bounds in the `ab` calculus; counterexamples: DF011 = 80000h not recognised, 1012 with unknown channel keeps L2, negative range converted to unsigned |
| C81 | Rx_model: the dispatch, dating and buffering of ObsBuffer_model with the real decoders and conversions (MsmVal, Options, LegVal, LegRx) in place of its parameters, the channel map in the state; framing from RtcmFraming_model. Rx_spec: epochs as an inductive predicate on payloads and arrival times | per message: C77/C78/C80 give the decoded values, C20/C21 the time, then one step of the buffer; induction over the epoch and over the list of epochs; C03 for the frames. Counterexamples: first MSM epoch at a week start, unconverted message alone in its epoch (empty epoch at time 0 is sent) |
| C82 | RxTx_model: out_frames, the frames sbp2rtcm makes of an SBP epoch (Sbp2Msm, MsmVal, encode_msm, framing) with the channels known to sbp2rtcm, given to Rx_model. RxTx_spec: sendable epochs, the receiver's time in step, what arrives | the header and every decoded cell of a frame that encode_msm wrote are computed back (C65), its time by C20/C21, the multiple bits by C29; the epoch is then a complete epoch of C81's kind (with its own induction, since decoded values here need not be in MsmRx's ordinary range); zero biases change nothing (doubles); with C28 from SBP messages, with C03 from bytes, induction over epochs |
| C83 | ToolTime_model: rtcm3tosbp -o, payload by payload: Rx_model with the time of the last SBP observation message sent (cb_rtcm_to_sbp, update_obs_time). ToolTime_spec: epochs in step with that time; gaps of at most 15 s | closed_loop: as long as the messages of a payload leave a property of the time intact the run is a run of Rx_model at that time; C82 per epoch; induction over the stream; the time after an epoch is its time unless its tow is 0; steady streams stay in step; refuted without GPS for GLONASS once a minute |
| C84 | Relay_model: sbp2rtcm with every message type it converts (callbacks of sbp2rtcm.c:91-166 over one shared sender, header and buffer) and rtcm3tosbp with every message type it decodes (Rx_model with StaConv, EphOut, Tunnel as the other cases). Relay_spec: the items of a history, which of them can be converted, the time the receiver needs, what must come out | C28's machine gives the items; per item: C82's one_epoch, C66/C67 base and biases, C76 ephemerides, C69/C70 tunnel and log; a message other than observations leaves the receiver's observation state undisturbed; epochs emit observations only; induction over the history; C03 from bytes; with ToolTime_model's closed loop (C83) for rtcm3tosbp -o with no time given after the start date; refuted: GLONASS phases are lost |
| C85 | no new model: Rx_model (framing, dispatch, gating, decoders, conversion, buffer) from the initial state, on any bytes. ObsOut_spec: obs_ok (field ranges, no value behind an unset flag, satellite number in the range of the signal's constellation, mask), message_ok (sender, time, numbering, at most 14 observations, only the last message shorter) | lemma per conversion (cell_obs_b, freq_to_sbp_b) from the definitions of the float-to-integer conversions; station numbers from the decoders; invariant of the receiver state (every buffered observation fine, sender set whenever something is buffered, stored time in range) through send_observations, the add functions, decode_payload, rx_run |
| C86 | no new model: Sbp2Msm_model, MsmVal_model, Rx_model as in C82. Settled_spec: close (code, phase, Doppler near the other ones of the satellite, in metres), settled (well-formed, whole dB-Hz, close, accepted by the receiver) | C82 for the epoch; the received observations are well-formed by the invariant of C85; a settled observation's received version agrees with it field by field; what a first pass delivers is settled and sendable, and its sender number is a fixed point |
| C87 | no new model: Rx_model with the other messages of Relay_model.full_rest. Apart_spec: which message types concern observations; the four kinds of output | simulation relation (equal except for what the other messages keep) through send_observations, the add functions, decode_payload; other message types only change that part; conversely the observation functions neither emit other messages nor touch their state, and every other conversion looks at its own message types, so the runs of StaConv_model, Tunnel_model and EphOut_model over the whole stream are projections of the run; with C82: epochs sent among other messages arrive (Properties_amid) |
| C88 | no new model: Ssr_model; the message kinds by their numbers (Ssr_spec.ssr_number), read from the first twelve bits | the decoder's header gives the constellation of that number; each step reads and writes only the cache entry of its constellation, other kinds none; induction over the stream |
| C89 | no new model: Relay_model.tool_run (every callback sbp2rtcm registers), Relay_spec.leaves_sender | each callback other than that of the observations writes frames that do not depend on the state and changes at most the sender; the observation callback leaves its own sender behind; induction over the history with the frames of each message |

Every property of properties.jsonl is expressed in the model; MANIFEST.json says for each which theorems state it and, where only part is
proved, what is missing (`partial`).  In all `partial` cases the missing part is false of the code: a `_refuted` theorem gives the witness.

## Trusted base
1. Coq 8.16.1's kernel (including `vm_compute`), and the reading of the theorem statements.
2. Axioms: only those of the standard library.  `ASSUMPTIONS.md` (generated by `tools/assumptions.py`) has Print Assumptions for every theorem of
   MANIFEST.json: 75% are closed under the global context, the others (everything with floating point, through Coq's real numbers
   and Flocq) depend on exactly
   `ClassicalDedekindReals.sig_forall_dec`, `ClassicalDedekindReals.sig_not_dec`, `Classical_Prop.classic`,
   `FunctionalExtensionality.functional_extensionality_dep`.
   (vcheck's list of loaded library axioms also names the sealed constants of `Rdefinitions` and `ssr.ssrunder`: opaque module fields with
   definitions, not axioms of these theorems.)
   No own axioms, no `Admitted`, no functors or module types.  `Section` variables are universally quantified in the closed theorems.
3. The faithfulness of the model to the C/C++ text of /repo, which was transcribed by hand (UbxMsg_model.v by a script from the struct
   definitions and codecs) and cites its source lines.  Assumed platform: little endian, 8-bit bytes, 32-bit int, two's complement, IEEE-754 single and double
   precision without excess precision or contraction, round to nearest even.
4. External code that is not in /repo (the submodules libsbp and libswiftnav are empty), modelled from its use and documented contract:
   * libswiftnav: bitstream/bytestream readers (fail iff not enough data), fifo (ring buffer; write takes what fits), crc24q and
     crc24q_bits (polynomial 0x864CFB), bitcopy/bitshl, gps_time helpers (gpsdifftime, week rollover), PRN ranges and code/constellation
     tables, days_in_month, NMEA position modes.
   * left as parameters, theorems hold for every choice: the orbit decoders `decode_*_ephemeris` (verdict), encode_lock_time/decode_lock_time,
     FLOAT_EQUALITY_EPS, log2f and the BeiDou URA table where they matter (C26), the numbering of `code_t`, geoid model, sqrt/atan2 results (C44-C56),
     the scale constants C_1_2Pk, gps_adjust_week_cycle and gps_time_match_weeks_safe (C57, C58; hypotheses `consts_ok`, `consts_exact` say what is needed),
     the elapsed-lock-time encoder, sid_valid, the geoid model, cos and sin (C59-C61; the velocity theorem asks for accuracy 2^-52),
     gps_time_match_weeks_safe (C64: C64_offset asks for the nearest week), the carrier frequencies of libswiftnav (C65: whole Hz, 1.1 to 1.7 GHz),
     the result of converting an out-of-range double to uint32_t (C68), the verdict of libsbp's sbp_message_decode (C69, C70).
   * libsbp: struct layouts of the packed messages (sizes, field order), u8 sequence nibble encoding.
   * C library: printf integer conversions in the "C" locale; "%.nf" is a parameter; memcpy, qsort.

## Modelled and not modelled
Modelled: c/librtcm (bits.c, msm_utils.c, encode.c, decode.c for 1001-1008, 1010, 1012, 1029, 1033, 1230, 4062, 4075, MSM4-7; eph_encode.c, eph_decode.c; sta_decode.c;
ssr_decode.c), c/gnss_converters/src: rtcm3_sbp.c (transport, dispatch, gating, observation buffer, send_observations, 1029 log, SSR
cache), rtcm3_sbp_ssr.c, rtcm3_sbp_ephemeris.c, rtcm3_utils.c, time_truth.c, ubx_sbp.c (framing and all handlers: RAWX, SFRBX, ESF-MEAS, ESF-RAW, NAV-*, HNR-PVT, MON-HW), ubx_ephemeris/*.c, ephemeris/sbas.c, ixcom_sbp.c,
nmea.c, sbp_nmea.c; c/gnss_converters_extra/src/sbp_rtcm3.c (observation assembly, MSM construction, legacy 1004/1012 construction, frame writer, base position, antenna, GLONASS bias callbacks, tunnelled OSR/SSR and log messages), sbp_rtcm3_ephemeris.c; c/libubx, c/libixcom; c/nov2sbp/parser, c/nov2sbp/src (observations, time, position, velocity, attitude, GPS ephemeris, IMU).
See the sections added below for parts modelled later.

Rx_model (C81): what messages other than observations emit (SBP ephemerides, SSR, base position, ..) is the parameter `rest`, which may depend on the whole state but not change buffer, times or channel map; an observation message dropped because of its time is converted first (the code does not), so an undefined conversion in a dropped message counts.

RxTx_model (C82) adds no new code of its own: it puts sbp2rtcm's observation path (C28, C29, C65) in front of rtcm3tosbp's (C81). The receiver has no GLONASS biases configured and any constellation mask; its channel map must not contradict the sender's.

ToolTime_model (C83) covers c/rtcm3tosbp/src/rtcm3tosbp.c:49-82 and the main loop 241-270 with the option -o and a start date. The UTC offset is taken to be one constant of 0..30 s over the run. The SBP framing of the output and reads/writes of files are not modelled.

Relay_model (C84) joins the parts of both tools that earlier models treat one by one: tool_step is one SBP message through the callback that sbp2rtcm registers for it, full_rest the cases of rtcm2sbp_process other than observations. The payloads of base positions, biases and ephemerides are taken as libsbp's decoded structures (external). SSR and 999 messages of the receiver emit nothing there (C24, C25, C74 have them); no antenna is configured (the tool has no option for it).

Not modelled: command-line tools (main.c files; the option loop of rtcm3tosbp.c and options.c are modelled in Cli_model and Options_model; sbp_conv.c is modelled except malloc/free), Rust and Haskell/Python code of the repository, logging and warnings
texts.
RTCM numeric fields of librtcm are integers in units of their resolution (the doubles of the structs are multiples of it), except where a
model says "IEEE double".
