{
 "claims": [
  {
   "property": "C01",
   "status": "proved",
   "theorems": [
    "C01_chunking_invariance"
   ],
   "note": ""
  },
  {
   "property": "C02",
   "status": "proved",
   "theorems": [
    "C02_C03_delivered_frames"
   ],
   "note": ""
  },
  {
   "property": "C03",
   "status": "proved",
   "theorems": [
    "C02_C03_delivered_frames",
    "C03_every_frame_delivered"
   ],
   "note": ""
  },
  {
   "property": "C04",
   "status": "proved",
   "theorems": [
    "C04_fifo_never_overflows"
   ],
   "note": ""
  },
  {
   "property": "C05",
   "status": "partial",
   "theorems": [
    "C05_frame_round_trip",
    "C05_frame_delivered",
    "C05_empty_payload",
    "C05_long_payload_refuted",
    "C05_message_through_transport"
   ],
   "note": "proved for payloads of 1..1017 bytes; for 1018..1023 bytes the claim is refuted (write past the callers' 1023-byte array)"
  },
  {
   "property": "C06",
   "status": "proved",
   "theorems": [
    "C06_setbitu",
    "C06_setbitul",
    "C06_get_set_u",
    "C06_get_set_ul",
    "C06_get_set_s",
    "C06_get_set_sl",
    "C06_get_set_sign_magnitude"
   ],
   "note": ""
  },
  {
   "property": "C07",
   "status": "proved",
   "theorems": [
    "C07_1005_round_trip",
    "C07_1006_round_trip",
    "C07_1006_height_clamped",
    "C07_1007_round_trip",
    "C07_1008_round_trip",
    "C07_1033_round_trip"
   ],
   "note": "doubles are integer quanta; see DESIGN.md for the floating-point step"
  },
  {
   "property": "C08",
   "status": "proved",
   "theorems": [
    "C08_1029_round_trip"
   ],
   "note": ""
  },
  {
   "property": "C09",
   "status": "partial",
   "theorems": [
    "C09_1230_round_trip_partial",
    "C09_1230_bias_indicator_refuted"
   ],
   "note": "round trip of everything but bias_indicator, which the encoder always transmits as 0 (refuted)"
  },
  {
   "property": "C10",
   "status": "partial",
   "theorems": [
    "C10_legacy_round_trip_partial",
    "C10_lock_time",
    "C10_phaserange_rollover",
    "C10_rollover_hits_invalid_refuted",
    "C10_32_satellites_refuted",
    "C10_missing_l2_refuted"
   ],
   "note": "proved for at most 31 usable satellites with plausible values; refuted for 32 satellites, for a dual-frequency satellite lacking L2 and at the phase range rollover boundary"
  },
  {
   "property": "C11",
   "status": "proved",
   "theorems": [
    "C11_find_nth_mask_value",
    "C11_cells_in_mask_order",
    "C11_decoded_masks_consistent"
   ],
   "note": ""
  },
  {
   "property": "C12",
   "status": "partial",
   "theorems": [
    "C12_msm_round_trip_partial",
    "C12_lock_time",
    "C12_rough_range_wraps_refuted",
    "C12_cnr_wraps_refuted",
    "C12_msm_payload_meaning",
    "C12_lock_time_ext"
   ],
   "note": "proved for rough ranges below 255 ms not within 1/2048 ms below a whole ms and C/N0 below 63.5 dB-Hz; refuted outside (fields wrap); GLONASS day of week is not decoded"
  },
  {
   "property": "C13",
   "status": "partial",
   "theorems": [
    "C13_msm_decoder_in_bounds_partial",
    "C13_cell_mask_overflow_refuted",
    "C13_satellite_array_overflow_refuted"
   ],
   "note": "proved for payloads announcing at most 32 satellites and 64 cells; refuted otherwise (cell_mask[64] and sats[32] overflow)"
  },
  {
   "property": "C14",
   "status": "partial",
   "theorems": [
    "C14_truncated_1019_rejected",
    "C14_truncated_1020_rejected",
    "C14_truncated_1042_rejected",
    "C14_truncated_1044_rejected",
    "C14_truncated_1045_rejected",
    "C14_truncated_1046_rejected",
    "C14_truncated_legacy_observations_rejected",
    "C14_truncated_msm_rejected",
    "C14_truncated_ssr_orbit_rejected",
    "C14_truncated_ssr_code_bias_rejected",
    "C14_truncated_ssr_phase_bias_rejected",
    "C14_refuted_truncated_ssr_clock_accepted",
    "C14_truncated_station_messages_rejected",
    "C14_truncated_1006_refuted"
   ],
   "note": "proved for 1005,1007,1008,1029,1033,1230,4062,1001-1004,1010,1012,MSM4-7,1019,1020,1042,1044-1046 and SSR orbit/code bias/phase bias; refuted for 1006 and the SSR clock messages"
  },
  {
   "property": "C15",
   "status": "partial",
   "theorems": [
    "C15_1020_round_trip",
    "C15_1042_round_trip",
    "C15_1042_geo_refused",
    "C15_1019_round_trip_partial",
    "C15_1019_toe_toc_exchanged",
    "C15_1019_round_trip_refuted",
    "C15_1046_round_trip_partial",
    "C15_1045_round_trip_partial",
    "C15_1046_health_refuted",
    "C15_1045_health_refuted",
    "C15_1019_payload_meaning",
    "C15_1044_payload_meaning"
   ],
   "note": "1020 and 1042 exact; 1019 exact when toe=toc (encoder exchanges them otherwise: refuted); 1045/1046 exact while the health MSB is clear (decoder sign-extends: refuted)."
  },
  {
   "property": "C16",
   "status": "proved",
   "theorems": [
    "C16_4062_round_trip"
   ],
   "note": ""
  },
  {
   "property": "C17",
   "status": "proved",
   "theorems": [
    "C17_epoch_split",
    "C17_buffer_bounded"
   ],
   "note": "for every buffer, and the buffer bound is an invariant of every history"
  },
  {
   "property": "C18",
   "status": "partial",
   "theorems": [
    "C18_no_mixing",
    "C18_order_preserved",
    "C18_msm_observations_kept",
    "C18_legacy_observations_kept",
    "C18_last_message_flushes",
    "C18_refuted_incomplete_epoch_sent",
    "C18_refuted_same_week",
    "C18_refuted_station_separation",
    "C18_stations_distinct_partial"
   ],
   "note": "no mixing by time-of-week/sender and order preservation for every history proved; 'exactly one epoch' refuted in three documented cases (incomplete MSM epoch after 5 s gap, same tow a week apart, stations sharing a sender id); per-message lossless acceptance proved outside them"
  },
  {
   "property": "C19",
   "status": "proved",
   "theorems": [
    "C19_bds_gps_inverse",
    "C19_bds_gps_offset",
    "C19_bds_week_round_trip",
    "C19_refuted_bds_week_start"
   ],
   "note": "ms-exact; BDS ephemeris week start at second 14 refuted (finding 28)"
  },
  {
   "property": "C20",
   "status": "proved",
   "theorems": [
    "C20_message_time_nearest",
    "C20_invalid_tow_unknown",
    "C20_result_has_tow",
    "C20_refuted_unknown_reference_aborts",
    "C20_message_time_in_doubles",
    "C20_true_time_recovered_in_doubles"
   ],
   "note": "for reference weeks away from 0/32767, on integer milliseconds and in IEEE doubles from any double reference (Properties_timed); unknown reference aborts (finding 16)"
  },
  {
   "property": "C21",
   "status": "proved",
   "theorems": [
    "C21_glo_time_in_doubles",
    "C21_glo_time_nearest",
    "C21_invalid_tod_rejected",
    "C21_unknown_leap_rejected",
    "C21_unknown_reference_rejected",
    "C21_encoded_tod",
    "C21_glo_inverse",
    "C21_gps_inverse",
    "C21_refuted_unknown_leap_encoded",
    "C21_refuted_midnight_slot",
    "C21_glo_slot_partial",
    "C21_glo_time_resolved_in_doubles",
    "C21_true_time_recovered_in_doubles"
   ],
   "note": "time-of-day resolution and inverse both ways, also in IEEE doubles from any double reference; findings 26, 27 refuted separately"
  },
  {
   "property": "C22",
   "status": "proved",
   "theorems": [
    "C22_monotone",
    "C22_sound",
    "C22_success_was_visible",
    "C22_no_lost_update",
    "C22_only_newer_admissible_updates_write",
    "C22_whole_seconds_exact",
    "C22_sequential_update",
    "C22_unhealthy_or_other_messages_ignored",
    "C22_refuted_stored_time_valid"
   ],
   "note": "arbitrary number of threads and schedules, float storage modelled"
  },
  {
   "property": "C23",
   "status": "proved",
   "theorems": [
    "C23_gated_messages_have_no_effect",
    "C23_unsolved_never_buffers",
    "C23_refuted_no_observation_message_before_time"
   ],
   "note": "gating for every message number; empty observation message before time known refuted separately"
  },
  {
   "property": "C24",
   "status": "partial",
   "theorems": [
    "C24_orbit_message_decoded",
    "C24_clock_message_decoded",
    "C24_orbit_clock_message_decoded",
    "C24_pairing",
    "C24_join",
    "C24_same_epoch_same_satellite",
    "C24_once_per_pair",
    "C24_nothing_dropped",
    "C24_refuted_late_clock_dropped",
    "C24_combined",
    "C24_time",
    "C24_refuted_bds_epoch_wraps",
    "C24_never_aborts",
    "C24_constellation_label"
   ],
   "note": "pairing, join, once per pair, time and no abort proved for every payload stream; refuted: a clock correction at an index >= number of orbit corrections is dropped although its orbit is present, and an out-of-range BeiDou epoch wraps instead of being rejected"
  },
  {
   "property": "C25",
   "status": "proved",
   "theorems": [
    "C25_code_bias_message_decoded",
    "C25_phase_bias_message_decoded",
    "C25_counts_in_bounds",
    "C25_code_biases_complete",
    "C25_phase_biases_complete",
    "C25_phase_split_lossless"
   ],
   "note": "decoding of every laid-out message, array bounds, complete and ordered bias lists; for every message whose epoch time is a time of week"
  },
  {
   "property": "C26",
   "status": "partial",
   "theorems": [
    "C26_gps_ura_exact",
    "C26_bds_ura_exact",
    "C26_glo_ft_exact",
    "C26_never_better_refuted",
    "C26_monotone_refuted",
    "C26_index_range_refuted",
    "C26_no_logarithm_refuted",
    "C26_sisa_exact",
    "C26_sisa_nearest",
    "C26_sisa_monotone",
    "C26_sisa_outside",
    "C26_sisa_never_better_refuted",
    "C26_gps_fit_interval",
    "C26_gps_fit_flag_round_trip",
    "C26_short_fit_interval_refuted",
    "C26_glo_fit_round_trip",
    "C26_glo_fit_exact"
   ],
   "note": "Exact on every table entry for URA, F_T, BDS URAI, SISA and both fit intervals; SISA is monotone and within half a step of every value. Refuted for values between entries of URA/F_T: not conservative, not monotone, index can exceed 4 bits, undefined for nonpositive values; short fit intervals are lengthened."
  },
  {
   "property": "C27",
   "status": "partial",
   "theorems": [
    "C27_code_to_signal_id",
    "C27_signal_id_to_code",
    "C27_numbering_injective",
    "C27_signal_index_round_trip",
    "C27_signal_code_round_trip",
    "C27_sat_index_round_trip",
    "C27_sat_prn_round_trip",
    "C27_foreign_prn_rejected",
    "C27_message_number",
    "C27_gps_z_tracking_refuted"
   ],
   "note": "bijection proved for all supported signals and satellites; refuted for the GPS Z-tracking aliases (1W/2W share MSM ids with other codes)"
  },
  {
   "property": "C28",
   "status": "partial",
   "theorems": [
    "C28_assembly_partial",
    "C28_complete_epoch_delivered_partial",
    "C28_payload_fields",
    "C28_zero_total_refuted",
    "C28_short_payload_refuted",
    "C28_week_jump_refuted"
   ],
   "note": "Proved for every history whose observation messages have a complete header, announce at least one message per epoch and whose weeks lie within 3550 weeks. The unrestricted property is false of the code: a sequence announcing zero messages overruns the buffer (C28_zero_total_refuted), payloads shorter than the header are read out of bounds, and larger week jumps overflow a signed product."
  },
  {
   "property": "C29",
   "status": "proved",
   "theorems": [
    "C29_multiple_bit",
    "C29_epoch_carried",
    "C29_duplicate_refuted",
    "C29_sbas_refuted",
    "C29_unknown_code_refuted",
    "C29_lone_invalid_sat_refuted",
    "C29_many_sats_refuted",
    "C29_refused_observation_overwrites_refuted"
   ],
   "note": "Multiple bit for every converted epoch; additionally every observation of an epoch that fits is carried in its cell. Epochs with duplicates, SBAS, unknown codes or more than 32 satellites of a constellation stop the process or overrun an array (refuted theorems)."
  },
  {
   "property": "C30",
   "status": "partial",
   "theorems": [
    "C30_station_partial",
    "C30_foreign_message_refuted"
   ],
   "note": "Proved when no other message of a different sender arrives between observation messages; false otherwise (C30_foreign_message_refuted)."
  },
  {
   "property": "C31",
   "status": "proved",
   "theorems": [
    "C31_only_valid_frames",
    "C31_frame_fits",
    "C31_call_terminates"
   ],
   "note": "For every byte stream, every splitting into reads and every interleaving of errors/end of stream."
  },
  {
   "property": "C32",
   "status": "proved",
   "theorems": [
    "C32_chunking_invariance",
    "C32_delivery",
    "C32_resynchronises",
    "C32_corrupted_length_swallows_valid_frame_refuted",
    "C32_end_of_data_inside_frame_refuted"
   ],
   "note": "Chunking invariance, delivery of separated frames, resynchronisation after arbitrary garbage; two refuted strengthenings (corrupted length swallows a valid frame; end of data inside a frame loses it)."
  },
  {
   "property": "C33",
   "status": "proved",
   "theorems": [
    "C33_hnr_pvt_round_trip",
    "C33_nav_att_round_trip",
    "C33_nav_clock_round_trip",
    "C33_nav_pvt_round_trip",
    "C33_nav_velecef_round_trip",
    "C33_nav_status_round_trip",
    "C33_mga_gps_eph_round_trip",
    "C33_esf_ins_round_trip",
    "C33_rawx_round_trip",
    "C33_nav_sat_round_trip",
    "C33_sfrbx_round_trip",
    "C33_esf_meas_round_trip",
    "C33_esf_raw_round_trip"
   ],
   "note": "All 13 libubx messages; encoder and decoder are inverse bijections between in-range messages and byte strings."
  },
  {
   "property": "C34",
   "status": "proved",
   "theorems": [
    "C34_hnr_pvt_bounds",
    "C34_nav_att_bounds",
    "C34_nav_clock_bounds",
    "C34_nav_pvt_bounds",
    "C34_nav_velecef_bounds",
    "C34_nav_status_bounds",
    "C34_mga_gps_eph_bounds",
    "C34_esf_ins_bounds",
    "C34_rawx_bounds",
    "C34_nav_sat_bounds",
    "C34_sfrbx_bounds",
    "C34_esf_meas_bounds",
    "C34_esf_raw_bounds",
    "C34_hnr_pvt_truncated",
    "C34_nav_att_truncated",
    "C34_nav_clock_truncated",
    "C34_nav_pvt_truncated",
    "C34_nav_velecef_truncated",
    "C34_nav_status_truncated",
    "C34_mga_gps_eph_truncated",
    "C34_esf_ins_truncated",
    "C34_rawx_truncated",
    "C34_nav_sat_truncated",
    "C34_sfrbx_truncated",
    "C34_esf_meas_truncated",
    "C34_esf_raw_truncated"
   ],
   "note": "No UB on any byte string, exact acceptance, every truncation rejected, for all 13 decoders."
  },
  {
   "property": "C35",
   "status": "partial",
   "theorems": [
    "C35_split_lossless",
    "C35_rawx_converted",
    "C35_measurement",
    "C35_signal_table",
    "C35_pseudorange",
    "C35_epoch_time",
    "C35_more_than_210_refuted",
    "C35_tow_not_rolled_over_refuted",
    "C35_pseudorange_range_refuted"
   ],
   "note": "proved for at most 210 measurements and pseudoranges in [0, 85899344] m; refuted beyond 210 (header nibble wraps), for tow rounding up to 604800000 and for pseudoranges out of range (undefined conversion)"
  },
  {
   "property": "C36",
   "status": "partial",
   "theorems": [
    "C36_assembled_from_one_data_set",
    "C36_at_most_once_per_part",
    "C36_satellites_do_not_interfere",
    "C36_bds_complete_set",
    "C36_gal_complete_set",
    "C36_glo_complete_set",
    "C36_gps_two_sets",
    "C36_gps_one_set_refuted",
    "C36_glo_string_zero_refuted",
    "C36_no_undefined_behaviour",
    "C36_gal_page5_not_tied_refuted",
    "C36_gal_eight_words_ignored_refuted"
   ],
   "note": "Assembly, freshness, one issue of data, isolation between satellites, at-most-once and completeness (BDS, GAL, GLO: one set; GPS: two consecutive sets) proved for every history, with the external orbit decoders' verdicts as arbitrary parameters. Refuted: one complete GPS set after a stale subframe 3 is dropped, GLONASS string number 0 indexes out of bounds, Galileo page 5 carries no IODnav and is not tied to the set, eight-word Galileo messages are ignored. Not modelled: the orbit decoding of the assembled words (libswiftnav)."
  },
  {
   "property": "C37",
   "status": "proved",
   "theorems": [
    "C37_forwarded_iff_intact",
    "C37_only_from_sbas",
    "C37_single_bit_error_detected",
    "C37_time_partial",
    "C37_time_refuted"
   ],
   "note": "Forwarded exactly when 8 or 9 words, preamble and CRC-24Q of the 250-bit message are right; content proved bit for bit. The time stamp is right for tow >= 1120 ms (C37_time_partial); below, it wraps (C37_time_refuted)."
  },
  {
   "property": "C38",
   "status": "partial",
   "theorems": [
    "C38_odometry",
    "C38_imu",
    "C38_aux_every_20",
    "C38_odo_time",
    "C38_wheel_time",
    "C38_imu_time",
    "C38_sensor_wrap",
    "C38_gyro_scale",
    "C38_acc_scale",
    "C38_temperature",
    "C38_wheels_mixed_refuted",
    "C38_counter_wrap_refuted",
    "C38_time_truncated_refuted"
   ],
   "note": "odometry, ticks, inertial assembly, clocks and scalings proved for every history; refuted: counters of different wheels share one accumulator, the 22-bit wrap is not handled, time stamps may be one unit early"
  },
  {
   "property": "C39",
   "status": "partial",
   "theorems": [
    "C39_checksum_is_crc",
    "C39_imuraw_accept_iff",
    "C39_wheeldata_accept_iff",
    "C39_every_frame_is_an_encoding",
    "C39_short_frame_refuted"
   ],
   "note": "Checksum = CCITT remainder (unique); 44/28-byte messages accepted iff sync, id, CRC right, fields exact; refuted for frames with another length field (footer read at a fixed offset)."
  },
  {
   "property": "C40",
   "status": "partial",
   "theorems": [
    "C40_delivery",
    "C40_chunking",
    "C40_parsed_or_bad_header",
    "C40_short_length_overflow_refuted",
    "C40_long_length_assert_refuted",
    "C40_length16_stall_refuted"
   ],
   "note": "Every frame delivered once, in order, for every chunking, no overflow/assert, when all length fields are 17..4095 (exact complement proved); refuted: length <16 overflows, 16 stalls, >=4096 asserts."
  },
  {
   "property": "C41",
   "status": "proved",
   "theorems": [
    "C41_imu_time",
    "C41_week_in_range",
    "C41_time_wrap_refuted",
    "C41_output",
    "C41_acceleration",
    "C41_rotation",
    "C41_velocity",
    "C41_velocity_ub_refuted"
   ],
   "note": "Exact 1/256 ms time, output of whole streams, scaling bounds for acceleration/rotation/velocity; refuted outside the 32-bit range."
  },
  {
   "property": "C42",
   "status": "proved",
   "theorems": [
    "C42_crc_is_the_remainder",
    "C42_only_valid_frames",
    "C42_unexpected_body_length_aborts_refuted"
   ],
   "note": "Only CRC-32-valid frames reach the callbacks, the value checked is the remainder of the polynomial division, and every delivered message is decoded from its frame. The refuted theorem exhibits the one input class on which the process aborts (CRC-valid frame of a handled type with an unexpected body length)."
  },
  {
   "property": "C43",
   "status": "partial",
   "theorems": [
    "C43_full_reads_partial",
    "C43_scan_defined",
    "C43_back_to_back_frames",
    "C43_split_frame_lost_refuted",
    "C43_tool_delivers_prefix",
    "C43_tool_short_file_refuted",
    "C43_empty_input_refuted",
    "C43_4096_byte_frame_stops_refuted"
   ],
   "note": "Delivery is independent of read sizes when every read returns a full buffer or end of input; refuted in general: a frame split by a short read is lost, the tool drops the tail of the file, an empty stream and a 4096-byte frame stop the parser."
  },
  {
   "property": "C44",
   "status": "proved",
   "theorems": [
    "C44_buffer_never_overrun",
    "C44_time_string_never_overrun",
    "C44_every_sentence"
   ],
   "note": "Buffer bounds for every text and buffer content, and form of every delivered sentence in every history. External: printf's %f output contains only printable characters other than $ and *; geoid, sqrt, atan2."
  },
  {
   "property": "C45",
   "status": "partial",
   "theorems": [
    "C45_only_from_its_messages",
    "C45_one_epoch_partial",
    "C45_not_twice_in_a_row",
    "C45_at_most_once_partial",
    "C45_complete_epoch_is_sent_partial",
    "C45_fused_mixed_refuted",
    "C45_twice_at_the_switch_refuted",
    "C45_week_start_missed_refuted"
   ],
   "note": "Proved: one epoch's data while the GNSS solution is reported, never twice in a row, strictly increasing without BEST mode, complete epochs are sent (tow <> 0). False, with counterexamples: fused groups are not checked for a common time; at the switch an epoch can be repeated; an epoch at time of week 0 is missed."
  },
  {
   "property": "C46",
   "status": "partial",
   "theorems": [
    "C46_rate_is_respected",
    "C46_rate_zero_disables",
    "C46_every_rth_epoch_partial",
    "C46_one_in_r_partial",
    "C46_period",
    "C46_early_epochs_refuted",
    "C46_other_refuted",
    "C46_week_rollover_refuted"
   ],
   "note": "Proved: rate respected, 0 disables, one in r epochs when the times of week are multiples of the period plus less than half a period. False, with counterexamples: epochs a millisecond early, > 500 Hz, 0.1 Hz, week rollover."
  },
  {
   "property": "C47",
   "status": "proved",
   "theorems": [
    "C47_gsa",
    "C47_gsv",
    "C47_groups_cover",
    "C47_numbers_distinct",
    "C47_sbas_glonass_overlap_refuted"
   ],
   "note": "GSA lists ascending, distinct, at most 12, complete below 12; GSV lists every satellite once, four per sentence, numbered. Also: SBAS numbers from PRN 152 overlap GLONASS numbers (C47_sbas_glonass_overlap_refuted, beyond the claim)."
  },
  {
   "property": "C48",
   "status": "proved",
   "theorems": [
    "C48_mode",
    "C48_never_back",
    "C48_fused_request_refuted",
    "C48_fused_request_never_served"
   ],
   "note": "Mode as a function of the history. Also: a request for FUSED is never served (C48_fused_request_refuted)."
  },
  {
   "property": "C49",
   "status": "partial",
   "theorems": [
    "C49_rounding_partial",
    "C49_within_leap_second_partial",
    "C49_before_leap_second_refuted"
   ],
   "note": "Every UTC time but the half hundredth before a leap second, where the rounding skips the leap second (C49_before_leap_second_refuted)."
  },
  {
   "property": "C50",
   "status": "partial",
   "theorems": [
    "C50_list_is_a_prefix_of_one_epoch",
    "C50_capacity",
    "C50_gsa_when_complete_partial",
    "C50_incomplete_refuted",
    "C50_invalid_listed_refuted"
   ],
   "note": "List is a prefix of one epoch and never exceeds 224 entries; GSA when the count matches the last total. False: the total of a rejected message makes an incomplete list look complete; observations not marked valid are listed."
  },
  {
   "property": "C51",
   "status": "proved",
   "theorems": [
    "C51_fcn_map",
    "C51_channel_lookup",
    "C51_channel_from_message",
    "C51_lookup_in_bounds"
   ],
   "note": ""
  },
  {
   "property": "C52",
   "status": "partial",
   "theorems": [
    "C52_log_is_bounded_prefix",
    "C52_two_unit_characters_whole_partial",
    "C52_refuted_characters_whole"
   ],
   "note": "bound and prefix proved; character boundary only for 1-2 unit characters, 3-unit refuted"
  },
  {
   "property": "C53",
   "status": "partial",
   "theorems": [
    "C53_header_time",
    "C53_message_constellation",
    "C53_add_to_header",
    "C53_add_to_cell_mask",
    "C53_cells_distinct",
    "C53_unsupported_signal_refuted",
    "C53_satellite_left_behind_refuted"
   ],
   "note": "proved for signals the constellation supports; refuted: an unsupported signal writes signal_mask[32], and a refused signal leaves its satellite in the header"
  },
  {
   "property": "C54",
   "status": "partial",
   "theorems": [
    "C54_carrier_phase",
    "C54_doppler",
    "C54_doppler_wraps_refuted",
    "C54_phase_overflow_refuted",
    "C54_nan_refuted"
   ],
   "note": "proved for every finite value away from the boundary; refuted within half a unit of the integer limits and for NaN"
  },
  {
   "property": "C55",
   "status": "proved",
   "theorems": [
    "C55_field_count"
   ],
   "note": "For UTC messages that are invalid or hold a time; or the sentence fills the whole buffer (only possible with extreme printed numbers)."
  },
  {
   "property": "C56",
   "status": "proved",
   "theorems": [
    "C56_content",
    "C56_reserved_fix_aborts_refuted"
   ],
   "note": "sentences that are cut at the end of the buffer are excepted; printf of floating-point numbers, geoid, square roots and arc tangents are parameters; fix type 7 aborts (refuted theorem)"
  },
  {
   "property": "C57",
   "status": "partial",
   "theorems": [
    "C57_gps_round_trip_partial",
    "C57_gps_l2_flags_refuted",
    "C57_gal_round_trip_partial",
    "C57_bds_round_trip_partial",
    "C57_bds_week_start_refuted",
    "C57_glo_round_trip_partial",
    "C57_glo_midnight_refuted",
    "C57_glo_uninitialised_refuted",
    "C57_gal_iodnav_refuted",
    "C57_out_of_range_undefined_refuted"
   ],
   "note": "Round trips proved for 1019, 1020, 1042, 1045/1046. False of the code and refuted: the L2 code/data flags (1019), a BeiDou reference time at the start of a week, GLONASS slot 0, Galileo issue of data taken from iodc, slot uninitialised without leap seconds, undefined conversion of out-of-range SBP values. QZSS has no way back."
  },
  {
   "property": "C58",
   "status": "partial",
   "theorems": [
    "C58_gps_values",
    "C58_qzss_values",
    "C58_qzss_valid_flag_refuted",
    "C58_gal_values",
    "C58_bds_values",
    "C58_glo_values",
    "C58_glo_iod",
    "C58_glo_iod_distinct"
   ],
   "note": "All values proved for GPS, QZSS, Galileo, BeiDou, GLONASS. Refuted: the QZSS valid flag compares all 10 bits of IODC with IODE."
  },
  {
   "property": "C59",
   "status": "partial",
   "theorems": [
    "C59_observations_partial",
    "C59_empty_refuted",
    "C59_phase_flag_refuted",
    "C59_glonass_refuted"
   ],
   "note": "Proved for non-empty logs. False of the code: an empty log casts a negative double to unsigned; the phase is declared valid without phase lock; GLONASS satellite numbers are not translated (see the _refuted theorems)."
  },
  {
   "property": "C60",
   "status": "partial",
   "theorems": [
    "C60_time_known",
    "C60_time_not_repeated",
    "C60_velocity_mode",
    "C60_position_values_partial",
    "C60_velocity_values_partial",
    "C60_attitude_values",
    "C60_ephemeris_values",
    "C60_accuracy_refuted",
    "C60_ins_ppp_refuted"
   ],
   "note": "Time, fix mode, attitude and GPS ephemeris proved in full. Positions: standard deviations below 65.5 m (above, the cast is undefined) and listed position types; velocity: accurate cos/sin assumed. The rest is refuted."
  },
  {
   "property": "C61",
   "status": "partial",
   "theorems": [
    "C61_measurements_partial",
    "C61_epson_refuted",
    "C61_error_refuted",
    "C61_gap_refuted",
    "C61_aux_first",
    "C61_aux_period_partial",
    "C61_aux_refuted"
   ],
   "note": "Proved for every IMU type with documented units except the Epson accelerometers (10^6 too large, refuted); lost logs, error logs and the auxiliary message after a week end are refuted."
  },
  {
   "property": "C62",
   "status": "partial",
   "theorems": [
    "C62_position",
    "C62_hnr_position_partial",
    "C62_attitude_partial",
    "C62_hnr_attitude_partial",
    "C62_velocity_partial",
    "C62_one_source",
    "C62_shared_refuted",
    "C62_velocity_accuracy_refuted",
    "C62_velocity_mode_refuted",
    "C62_fix_ok_refuted"
   ],
   "note": "Positions and attitudes are proved as stated per converter except that flags and satellites of high rate positions come from the last NAV-PVT of any converter of the process (pvt_state is a file static: C62_shared_refuted); velocity accuracy is sent in cm/s and modulo 65536 (C62_velocity_accuracy_refuted), the velocity mode is always dead reckoning or invalid plus INS (C62_velocity_mode_refuted), gnssFixOK is ignored (C62_fix_ok_refuted); angles and velocities beyond 214748364 units overflow (undefined)."
  },
  {
   "property": "C63",
   "status": "partial",
   "theorems": [
    "C63_satellites_partial",
    "C63_cn0_refuted",
    "C63_unknown_system_refuted",
    "C63_forward"
   ],
   "note": "Split, order and contents proved; azimuths above 510 degrees or negative and strengths of 64 dB-Hz and more do not fit and wrap (C63_cn0_refuted); satellites of unknown systems are sent with an invalid code (C63_unknown_system_refuted). Forwarding fully proved."
  },
  {
   "property": "C64",
   "status": "proved",
   "theorems": [
    "C64_offset",
    "C64_only",
    "C64_week_unknown"
   ],
   "note": "For week numbers below 32000 (SBP carries a signed 16 bit difference)."
  },
  {
   "property": "C65",
   "status": "proved",
   "theorems": [
    "C65_obs_to_msm_and_back",
    "C65_strong_signal_refuted",
    "C65_phase_ambiguity_refuted",
    "C65_far_code_refuted",
    "C65_long_range_refuted"
   ],
   "note": "The _refuted theorems show what the stated limits exclude: C/N0 of 63.5 dB-Hz or more, carrier phase with an arbitrary ambiguity offset, a second pseudorange 300 m away, ranges of 255 light-ms. Bias options at their default 0."
  },
  {
   "property": "C66",
   "status": "proved",
   "theorems": [
    "C66_base_position_out",
    "C66_base_position_in_and_back",
    "C66_nan_height_refuted",
    "C66_far_coordinate_refuted",
    "C66_station_number_refuted"
   ],
   "note": "Coordinates in the 38-bit range and finite heights; C66_*_refuted: NaN height accepted (undefined conversion), far coordinates wrap, station number changes on RTCM->SBP->RTCM."
  },
  {
   "property": "C67",
   "status": "proved",
   "theorems": [
    "C67_biases_out_and_back",
    "C67_biases_in_and_back",
    "C67_receiver_table"
   ],
   "note": "All statements for all histories; constants of the table compared in centimetres."
  },
  {
   "property": "C68",
   "status": "partial",
   "theorems": [
    "C68_obs_to_legacy_and_back_partial",
    "C68_pseudorange_refuted",
    "C68_p_code_refuted",
    "C68_undefined_conversion_refuted",
    "C68_32_satellites_refuted",
    "C68_33_first_signals_refuted",
    "C68_no_leap_second_refuted"
   ],
   "note": "proved for up to 31 satellites, pseudoranges up to 255 light-ms, phases within 1000 km, L2 pseudoranges within 163 m of L1 and not below its whole-ms part; missing because false of the code (refuted theorems): exact GPS pseudorange when the whole light-ms end in 5 (2 cm off), signal identity of P code, L2 below the whole-ms part (undefined conversion), 32 satellites (count wraps to 0), 33 first signals (array overrun), GLONASS with unknown leap seconds (rejected frame); lock class decreases by one per pass."
  },
  {
   "property": "C69",
   "status": "proved",
   "theorems": [
    "C69_messages_arrive_unchanged"
   ],
   "note": ""
  },
  {
   "property": "C70",
   "status": "partial",
   "theorems": [
    "C70_log_texts_arrive_partial",
    "C70_empty_text_not_sent",
    "C70_level_refuted",
    "C70_character_count_refuted"
   ],
   "note": "The level is lost and the character count of the 1029 message is always 0 (C70_level_refuted, C70_character_count_refuted); a log message without text is not sent."
  },
  {
   "property": "C71",
   "status": "partial",
   "theorems": [
    "C71_at_most_one_warning",
    "C71_first_message_warns_partial",
    "C71_sender_refuted",
    "C71_short_message_refuted"
   ],
   "note": "At most one warning proved for all histories; the sender is wrong (C71_sender_refuted) and a first MSM1-3 message shorter than 5 bytes suppresses the warning for good (C71_short_message_refuted)."
  },
  {
   "property": "C72",
   "status": "partial",
   "theorems": [
    "C72_sbas_frames_forwarded_partial",
    "C72_only_intact",
    "C72_250_bits_refuted",
    "C72_reads_other_bytes_refuted",
    "C72_reads_outside_refuted"
   ],
   "note": "Exactly the intact frames are forwarded if SBAS frames are padded to 256..288 bits; 250-bit frames are lost (C72_250_bits_refuted); contents announced beyond the payload are read from whatever follows, even outside the buffer (C72_reads_other_bytes_refuted, C72_reads_outside_refuted)."
  },
  {
   "property": "C73",
   "status": "partial",
   "theorems": [
    "C73_legacy_ignored_after_msm",
    "C73_repeated_gps_ignored",
    "C73_repeated_glo_ignored",
    "C73_legacy_resumes",
    "C73_future_time_blocks_refuted",
    "C73_repeated_msm_refuted",
    "C73_msm_order_refuted",
    "C73_newer_epoch_in_doubles",
    "C73_msm_timeout_in_doubles_partial",
    "C73_msm_timeout_whole_seconds",
    "C73_refuted_exactly_five_seconds"
   ],
   "note": "Exclusion, duplicates and resumption of legacy messages proved for all histories; the comparisons also in IEEE doubles, where exactly 5.000 s may go either way (C73_refuted_exactly_five_seconds); repeated or older MSM messages are not recognised (C73_repeated_msm_refuted, C73_msm_order_refuted) and one legacy message dated in the future blocks all right ones up to that time (C73_future_time_blocks_refuted)."
  },
  {
   "property": "C74",
   "status": "partial",
   "theorems": [
    "C74_firmware_version_partial",
    "C74_version_overflow_refuted",
    "C74_version_reads_outside_refuted",
    "C74_configuration",
    "C74_rf_status_refuted",
    "C74_rf_status_safe"
   ],
   "note": "Proved: version string shorter than the array, configuration string, RF status decoder neither reads outside nor fails an assertion. Refuted: a version string as long as the array writes behind it; no RF status message is ever accepted; the version decoder reads behind a cut-off message."
  },
  {
   "property": "C75",
   "status": "partial",
   "theorems": [
    "C75_bytes_returned_in_order_partial",
    "C75_each_call_returns_its_bytes_partial",
    "C75_buffer_bounded",
    "C75_other_types_ignored",
    "C75_wrapped_messages",
    "C75_observations_assembled",
    "C75_observation_epoch_partial",
    "C75_large_epoch_refuted",
    "C75_slow_caller_refuted",
    "C75_glonass_phase_refuted"
   ],
   "note": "Proved for every behaviour of the callbacks: exact bytes in order while at most 2048 bytes wait; each call returns its bytes; end to end for epochs of up to 150 observations and for wrapped messages. Refuted: a 210-observation epoch and a slow caller lose frames; GLONASS carrier phases are never sent (no way to set the channels)."
  },
  {
   "property": "C76",
   "status": "partial",
   "theorems": [
    "C76_gps_received",
    "C76_gps_partial",
    "C76_gps_reference_times_refuted",
    "C76_inav_partial",
    "C76_fnav_partial",
    "C76_gal_source_refuted",
    "C76_bds_partial",
    "C76_glo_partial",
    "C76_gps_relay_partial",
    "C76_inav_relay_partial",
    "C76_fnav_relay_partial",
    "C76_bds_relay_partial",
    "C76_glo_relay_partial",
    "C76_gps_clock_overflow_refuted",
    "C76_glo_unknown_leap_refuted"
   ],
   "note": "All five messages, for all representable values: one frame, delivered whatever the split, every parameter within 0.501 unit, integers equal. Refuted remainder: GPS toe and toc arrive exchanged (C76_gps_reference_times_refuted), a clock value too large for the field changes sign instead of being rejected (C76_gps_clock_overflow_refuted), without leap seconds GLONASS t_b is uninitialised and health forced (C76_glo_unknown_leap_refuted), a Galileo source value above 1 fails an assertion (C76_gal_source_refuted). Range exclusions are those refuted under C15/C57 (Galileo health sign, BeiDou week start, GLONASS midnight)."
  },
  {
   "property": "C77",
   "status": "partial",
   "theorems": [
    "C77_1019_read",
    "C77_1044_read",
    "C77_1042_read",
    "C77_1020_read",
    "C77_1046_read_partial",
    "C77_1045_read_partial",
    "C77_1046_health_refuted",
    "C77_1005_read",
    "C77_1006_read_partial",
    "C77_1006_short_refuted",
    "C77_1007_read",
    "C77_1008_read",
    "C77_1033_read",
    "C77_1029_read",
    "C77_1230_read",
    "C77_4062_read",
    "C77_legacy_read_partial",
    "C77_legacy_no_range_refuted",
    "C77_1042_written",
    "C77_1020_written",
    "C77_1019_written_partial",
    "C77_1019_written_refuted",
    "C77_1046_written",
    "C77_1045_written",
    "C77_1005_written",
    "C77_1006_written",
    "C77_1007_written",
    "C77_1008_written",
    "C77_1033_written",
    "C77_1029_written",
    "C77_4062_written",
    "C77_1230_written_partial"
   ],
   "note": "Complete read theorems (an equation for every payload) for 1005, 1007, 1008, 1019, 1020, 1029, 1033, 1042, 1044, 1230, 4062; written theorems for all encoders except legacy (C10). Partial because the rest is false: 1045/1046 health read as signed (refuted), short 1006 accepted with stale contents (refuted), legacy 80000h pseudorange reported valid (refuted), 1019 writes the two times exchanged (refuted), 1230 bias indicator (C09). MSM layout is C12, SSR C24/C25."
  },
  {
   "property": "C78",
   "status": "partial",
   "theorems": [
    "C78_received_msm_partial",
    "C78_ordinary_msm_partial",
    "C78_unknown_channel_refuted",
    "C78_high_cn0_refuted",
    "C78_negative_range_refuted",
    "C78_high_rate_refuted"
   ],
   "note": "For every MSM4-7 payload whose values SBP can hold (and for every ordinary message without further condition) each cell arrives with its range, phase, Doppler, C/N0, lock time and flags, biases and masks applied. Not true in general: satellite information 15 is taken for GLONASS channel +8, C/N0 fields 1022-1023, negative ranges and rates beyond 16-bit Doppler have no defined result (refuted theorems)."
  },
  {
   "property": "C79",
   "status": "partial",
   "theorems": [
    "C79_options_partial",
    "C79_sbas_last_refuted",
    "C79_sbas_swallows_refuted",
    "C79_negative_code_refuted",
    "C79_rest_ignored_refuted"
   ],
   "note": "All command lines of constellation flags other than -S, -s -o -v and well-formed bias lists. Not true for -S (needs a value, swallows the next option), negative signal numbers (write outside the array), entries after an unreadable one (refuted theorems)."
  },
  {
   "property": "C80",
   "status": "partial",
   "theorems": [
    "C80_received_legacy_partial",
    "C80_ordinary_legacy_partial",
    "C80_invalid_range_refuted",
    "C80_unknown_channel_refuted",
    "C80_negative_range_refuted"
   ],
   "note": "Proved for every payload of the four messages whose L1 range field is not 80000h, whose second signal has a known GLONASS channel and whose ranges are not negative (satellites beyond 1200 km need no condition). Refuted otherwise: DF011 = 80000h (invalid) is reported as a range; 1012 with unknown channel still reports L2 with a wrong carrier; a negative range is converted to unsigned."
  },
  {
   "property": "C81",
   "status": "partial",
   "theorems": [
    "C81_epochs_received_partial",
    "C81_one_msm_epoch_partial",
    "C81_quiet_messages",
    "C81_week_start_refuted",
    "C81_unconverted_alone_refuted"
   ],
   "note": "Proved for byte streams of complete MSM and legacy epochs (any number and order; legacy epochs in time order and 5 s after MSM ones), all chunkings, with other messages and channel announcements in between; message contents as in C78/C80 (ordinary cells, regular satellites), at most 210 cells per epoch. Refuted otherwise: a first MSM epoch exactly at the start of a week is dropped and an empty epoch of time 0 sent; likewise for an epoch consisting of unconverted messages only."
  },
  {
   "property": "C82",
   "status": "partial",
   "theorems": [
    "C82_epoch_arrives_partial",
    "C82_stream_arrives_partial",
    "C82_messages_arrive_partial",
    "C82_sender_refuted",
    "C82_qzss_only_refuted",
    "C82_week_start_refuted"
   ],
   "note": "Proved for epochs of distinct supported signals with values in range (as C65), at most 210 observations, not only QZSS, default options without biases, the receiver's time within half a week (GLONASS: 30 s) of the epoch: one epoch, a stream of epochs as bytes, and from the SBP messages themselves. Refuted otherwise: only 12 bits of the sender id survive (0x1234 becomes 0xF2B4), an epoch of QZSS observations only arrives as an empty epoch of sender 0 and time 0, and so does a first epoch exactly at the start of a week."
  },
  {
   "property": "C83",
   "status": "partial",
   "theorems": [
    "C83_stream_followed_partial",
    "C83_steady_stream_partial",
    "C83_glonass_every_minute_refuted"
   ],
   "note": "proved for streams produced by sbp2rtcm, with each epoch in step with the one before: C83_stream_followed_partial (general), C83_steady_stream_partial (gaps up to 15 s). Without that it is refuted: GLONASS alone once a minute is lost after the first epoch (C83_glonass_every_minute_refuted)"
  },
  {
   "property": "C84",
   "status": "partial",
   "theorems": [
    "C84_pipe_partial",
    "C84_steady_pipe_partial",
    "C84_items",
    "C84_relay_partial",
    "C84_glonass_phases_lost_refuted"
   ],
   "note": "Both directions for every message type sbp2rtcm converts, over any history and as bytes: with the receiver's time given (C84_relay_partial) and with rtcm3tosbp -o keeping its own time (C84_pipe_partial, C84_steady_pipe_partial). Partial: MSM5 and the tool's configuration (no antenna, no GLONASS channels); messages must be representable in RTCM (item_ok); the first epoch must not be at tow 0; GLONASS ephemerides within half a day of the time; the steady corollary excludes them. Refuted: GLONASS phases of the observation messages do not survive (the tool never supplies channels)."
  },
  {
   "property": "C85",
   "status": "proved",
   "theorems": [
    "C85_messages_well_formed",
    "C85_any_bytes",
    "C85_no_value_without_flag"
   ],
   "note": "Any payloads and any bytes from the initial state. Where the run has no result (undefined conversion of a double, failed assertion) nothing is claimed of that run; its prefixes are runs too. The other messages' outputs are a parameter (C66-C76)."
  },
  {
   "property": "C86",
   "status": "proved",
   "theorems": [
    "C86_settled_epoch_unchanged",
    "C86_second_pass_unchanged",
    "C86_order_refuted"
   ],
   "note": "The hypotheses include C82's (complete epoch, leap seconds known, agreeing channel maps, reference times in step, the first epoch of a run not exactly at the start of a week). The order of the observations is not preserved (refuted), only their set; the exact order on the air is that of C82. An epoch whose first pass leaves no observation is sent no second time."
  },
  {
   "property": "C87",
   "status": "proved",
   "theorems": [
    "C87_epochs_among_others_partial",
    "C87_observations_apart",
    "C87_others_apart"
   ],
   "note": "SSR messages are not part of the model of the other messages. Ephemerides: 1020 and 1044 only at a known time. The station, tunnel and ephemeris claims assume that none of these conversions has undefined behaviour on the stream (no RUndefined), the observation claim does not. 1020 belongs to the observations because it teaches the GLONASS channels; 1230 and the numbers 1070-1073 etc. belong to them because the end-of-epoch bit of any message numbered 1070 to 1229 flushes the buffer. C87_epochs_among_others_partial carries the epoch conversion of C82, under its hypotheses, to streams in which the epochs are mixed with other messages."
  },
  {
   "property": "C88",
   "status": "proved",
   "theorems": [
    "C88_orbit_clock_apart",
    "C88_others_alone",
    "C88_same_orbit_clock_same_output"
   ],
   "note": "With C24_never_aborts the conversion is defined for every stream whose receiver time is known (good_env). The time itself is shared with the other messages (C87)."
  },
  {
   "property": "C89",
   "status": "proved",
   "theorems": [
    "C89_others_alone",
    "C89_observations_apart",
    "C89_one_sender"
   ],
   "note": "The tool's configuration (MSM5, no antenna, no GLONASS channels). With several senders base positions, biases and logs do change the epoch being assembled: C30_foreign_message_refuted."
  }
 ]
}