# Print Assumptions for every theorem of MANIFEST.json

Generated by tools/assumptions.py.  Only axioms of the standard library occur.

## Closed under the global context (332 theorems)

`C01_chunking_invariance`, `C02_C03_delivered_frames`, `C03_every_frame_delivered`, `C04_fifo_never_overflows`, `C05_frame_round_trip`, `C05_frame_delivered`, `C05_empty_payload`, `C05_long_payload_refuted`, `C05_message_through_transport`, `C06_setbitu`, `C06_setbitul`, `C06_get_set_u`, `C06_get_set_ul`, `C06_get_set_s`, `C06_get_set_sl`, `C06_get_set_sign_magnitude`, `C07_1005_round_trip`, `C07_1006_round_trip`, `C07_1006_height_clamped`, `C07_1007_round_trip`, `C07_1008_round_trip`, `C07_1033_round_trip`, `C08_1029_round_trip`, `C09_1230_round_trip_partial`, `C09_1230_bias_indicator_refuted`, `C10_legacy_round_trip_partial`, `C10_lock_time`, `C10_phaserange_rollover`, `C10_rollover_hits_invalid_refuted`, `C10_32_satellites_refuted`, `C10_missing_l2_refuted`, `C11_find_nth_mask_value`, `C11_cells_in_mask_order`, `C11_decoded_masks_consistent`, `C12_msm_round_trip_partial`, `C12_lock_time`, `C12_rough_range_wraps_refuted`, `C12_cnr_wraps_refuted`, `C12_msm_payload_meaning`, `C12_lock_time_ext`, `C13_msm_decoder_in_bounds_partial`, `C13_cell_mask_overflow_refuted`, `C13_satellite_array_overflow_refuted`, `C14_truncated_1019_rejected`, `C14_truncated_1020_rejected`, `C14_truncated_1042_rejected`, `C14_truncated_1044_rejected`, `C14_truncated_1045_rejected`, `C14_truncated_1046_rejected`, `C14_truncated_legacy_observations_rejected`, `C14_truncated_msm_rejected`, `C14_truncated_ssr_orbit_rejected`, `C14_truncated_ssr_code_bias_rejected`, `C14_truncated_ssr_phase_bias_rejected`, `C14_refuted_truncated_ssr_clock_accepted`, `C14_truncated_station_messages_rejected`, `C14_truncated_1006_refuted`, `C15_1020_round_trip`, `C15_1042_round_trip`, `C15_1042_geo_refused`, `C15_1019_round_trip_partial`, `C15_1019_toe_toc_exchanged`, `C15_1019_round_trip_refuted`, `C15_1046_round_trip_partial`, `C15_1045_round_trip_partial`, `C15_1046_health_refuted`, `C15_1045_health_refuted`, `C15_1019_payload_meaning`, `C15_1044_payload_meaning`, `C16_4062_round_trip`, `C17_epoch_split`, `C17_buffer_bounded`, `C18_no_mixing`, `C18_order_preserved`, `C18_msm_observations_kept`, `C18_legacy_observations_kept`, `C18_last_message_flushes`, `C18_refuted_incomplete_epoch_sent`, `C18_refuted_same_week`, `C18_refuted_station_separation`, `C18_stations_distinct_partial`, `C19_bds_gps_inverse`, `C19_bds_gps_offset`, `C19_bds_week_round_trip`, `C19_refuted_bds_week_start`, `C20_message_time_nearest`, `C20_invalid_tow_unknown`, `C20_result_has_tow`, `C20_refuted_unknown_reference_aborts`, `C21_glo_time_nearest`, `C21_invalid_tod_rejected`, `C21_unknown_leap_rejected`, `C21_unknown_reference_rejected`, `C21_encoded_tod`, `C21_glo_inverse`, `C21_gps_inverse`, `C21_refuted_unknown_leap_encoded`, `C21_refuted_midnight_slot`, `C21_glo_slot_partial`, `C22_monotone`, `C22_sound`, `C22_success_was_visible`, `C22_no_lost_update`, `C22_only_newer_admissible_updates_write`, `C22_whole_seconds_exact`, `C22_sequential_update`, `C22_unhealthy_or_other_messages_ignored`, `C22_refuted_stored_time_valid`, `C23_gated_messages_have_no_effect`, `C23_unsolved_never_buffers`, `C23_refuted_no_observation_message_before_time`, `C24_orbit_message_decoded`, `C24_clock_message_decoded`, `C24_orbit_clock_message_decoded`, `C24_pairing`, `C24_join`, `C24_same_epoch_same_satellite`, `C24_once_per_pair`, `C24_nothing_dropped`, `C24_refuted_late_clock_dropped`, `C24_combined`, `C24_time`, `C24_refuted_bds_epoch_wraps`, `C24_never_aborts`, `C24_constellation_label`, `C25_code_bias_message_decoded`, `C25_phase_bias_message_decoded`, `C25_counts_in_bounds`, `C25_code_biases_complete`, `C25_phase_biases_complete`, `C25_phase_split_lossless`, `C26_gps_fit_interval`, `C26_gps_fit_flag_round_trip`, `C26_short_fit_interval_refuted`, `C26_glo_fit_round_trip`, `C26_glo_fit_exact`, `C27_code_to_signal_id`, `C27_signal_id_to_code`, `C27_numbering_injective`, `C27_signal_index_round_trip`, `C27_signal_code_round_trip`, `C27_sat_index_round_trip`, `C27_sat_prn_round_trip`, `C27_foreign_prn_rejected`, `C27_message_number`, `C27_gps_z_tracking_refuted`, `C28_payload_fields`, `C29_multiple_bit`, `C29_epoch_carried`, `C29_duplicate_refuted`, `C29_sbas_refuted`, `C29_unknown_code_refuted`, `C29_lone_invalid_sat_refuted`, `C29_many_sats_refuted`, `C29_refused_observation_overwrites_refuted`, `C31_only_valid_frames`, `C31_frame_fits`, `C31_call_terminates`, `C32_chunking_invariance`, `C32_delivery`, `C32_resynchronises`, `C32_corrupted_length_swallows_valid_frame_refuted`, `C32_end_of_data_inside_frame_refuted`, `C33_hnr_pvt_round_trip`, `C33_nav_att_round_trip`, `C33_nav_clock_round_trip`, `C33_nav_pvt_round_trip`, `C33_nav_velecef_round_trip`, `C33_nav_status_round_trip`, `C33_mga_gps_eph_round_trip`, `C33_esf_ins_round_trip`, `C33_rawx_round_trip`, `C33_nav_sat_round_trip`, `C33_sfrbx_round_trip`, `C33_esf_meas_round_trip`, `C33_esf_raw_round_trip`, `C34_hnr_pvt_bounds`, `C34_nav_att_bounds`, `C34_nav_clock_bounds`, `C34_nav_pvt_bounds`, `C34_nav_velecef_bounds`, `C34_nav_status_bounds`, `C34_mga_gps_eph_bounds`, `C34_esf_ins_bounds`, `C34_rawx_bounds`, `C34_nav_sat_bounds`, `C34_sfrbx_bounds`, `C34_esf_meas_bounds`, `C34_esf_raw_bounds`, `C34_hnr_pvt_truncated`, `C34_nav_att_truncated`, `C34_nav_clock_truncated`, `C34_nav_pvt_truncated`, `C34_nav_velecef_truncated`, `C34_nav_status_truncated`, `C34_mga_gps_eph_truncated`, `C34_esf_ins_truncated`, `C34_rawx_truncated`, `C34_nav_sat_truncated`, `C34_sfrbx_truncated`, `C34_esf_meas_truncated`, `C34_esf_raw_truncated`, `C35_split_lossless`, `C35_signal_table`, `C35_more_than_210_refuted`, `C36_assembled_from_one_data_set`, `C36_at_most_once_per_part`, `C36_satellites_do_not_interfere`, `C36_bds_complete_set`, `C36_gal_complete_set`, `C36_glo_complete_set`, `C36_gps_two_sets`, `C36_gps_one_set_refuted`, `C36_glo_string_zero_refuted`, `C36_no_undefined_behaviour`, `C36_gal_page5_not_tied_refuted`, `C36_gal_eight_words_ignored_refuted`, `C37_forwarded_iff_intact`, `C37_only_from_sbas`, `C37_single_bit_error_detected`, `C37_time_partial`, `C37_time_refuted`, `C38_sensor_wrap`, `C39_checksum_is_crc`, `C39_imuraw_accept_iff`, `C39_wheeldata_accept_iff`, `C39_every_frame_is_an_encoding`, `C40_parsed_or_bad_header`, `C40_short_length_overflow_refuted`, `C40_long_length_assert_refuted`, `C40_length16_stall_refuted`, `C41_imu_time`, `C41_week_in_range`, `C41_time_wrap_refuted`, `C42_crc_is_the_remainder`, `C42_only_valid_frames`, `C42_unexpected_body_length_aborts_refuted`, `C43_full_reads_partial`, `C43_scan_defined`, `C43_back_to_back_frames`, `C43_split_frame_lost_refuted`, `C43_tool_delivers_prefix`, `C43_tool_short_file_refuted`, `C43_empty_input_refuted`, `C43_4096_byte_frame_stops_refuted`, `C44_buffer_never_overrun`, `C47_groups_cover`, `C47_numbers_distinct`, `C47_sbas_glonass_overlap_refuted`, `C51_fcn_map`, `C51_channel_lookup`, `C51_channel_from_message`, `C51_lookup_in_bounds`, `C52_log_is_bounded_prefix`, `C52_two_unit_characters_whole_partial`, `C52_refuted_characters_whole`, `C53_header_time`, `C53_message_constellation`, `C53_add_to_header`, `C53_add_to_cell_mask`, `C53_cells_distinct`, `C53_unsupported_signal_refuted`, `C53_satellite_left_behind_refuted`, `C57_glo_midnight_refuted`, `C59_glonass_refuted`, `C66_station_number_refuted`, `C69_messages_arrive_unchanged`, `C70_log_texts_arrive_partial`, `C70_empty_text_not_sent`, `C70_level_refuted`, `C70_character_count_refuted`, `C71_at_most_one_warning`, `C71_first_message_warns_partial`, `C71_sender_refuted`, `C71_short_message_refuted`, `C72_sbas_frames_forwarded_partial`, `C72_only_intact`, `C72_250_bits_refuted`, `C72_reads_other_bytes_refuted`, `C72_reads_outside_refuted`, `C73_legacy_ignored_after_msm`, `C73_repeated_gps_ignored`, `C73_repeated_glo_ignored`, `C73_legacy_resumes`, `C73_future_time_blocks_refuted`, `C73_repeated_msm_refuted`, `C73_msm_order_refuted`, `C74_firmware_version_partial`, `C74_version_overflow_refuted`, `C74_version_reads_outside_refuted`, `C74_configuration`, `C74_rf_status_refuted`, `C74_rf_status_safe`, `C75_bytes_returned_in_order_partial`, `C75_each_call_returns_its_bytes_partial`, `C75_buffer_bounded`, `C75_other_types_ignored`, `C77_1019_read`, `C77_1044_read`, `C77_1042_read`, `C77_1020_read`, `C77_1046_read_partial`, `C77_1045_read_partial`, `C77_1046_health_refuted`, `C77_1005_read`, `C77_1006_read_partial`, `C77_1006_short_refuted`, `C77_1007_read`, `C77_1008_read`, `C77_1033_read`, `C77_1029_read`, `C77_1230_read`, `C77_4062_read`, `C77_legacy_read_partial`, `C77_legacy_no_range_refuted`, `C77_1042_written`, `C77_1020_written`, `C77_1019_written_partial`, `C77_1019_written_refuted`, `C77_1046_written`, `C77_1045_written`, `C77_1005_written`, `C77_1006_written`, `C77_1007_written`, `C77_1008_written`, `C77_1033_written`, `C77_1029_written`, `C77_4062_written`, `C77_1230_written_partial`, `C88_orbit_clock_apart`, `C88_others_alone`, `C88_same_orbit_clock_same_output`

## `ClassicalDedekindReals.sig_forall_dec`, `FunctionalExtensionality.functional_extensionality_dep` (1 theorems)

`C59_phase_flag_refuted`

## `ClassicalDedekindReals.sig_forall_dec`, `ClassicalDedekindReals.sig_not_dec`, `FunctionalExtensionality.functional_extensionality_dep` (1 theorems)

`C61_gap_refuted`

## `ClassicalDedekindReals.sig_forall_dec`, `ClassicalDedekindReals.sig_not_dec`, `Classical_Prop.classic`, `FunctionalExtensionality.functional_extensionality_dep` (232 theorems)

`C20_message_time_in_doubles`, `C20_true_time_recovered_in_doubles`, `C21_glo_time_in_doubles`, `C21_glo_time_resolved_in_doubles`, `C21_true_time_recovered_in_doubles`, `C26_gps_ura_exact`, `C26_bds_ura_exact`, `C26_glo_ft_exact`, `C26_never_better_refuted`, `C26_monotone_refuted`, `C26_index_range_refuted`, `C26_no_logarithm_refuted`, `C26_sisa_exact`, `C26_sisa_nearest`, `C26_sisa_monotone`, `C26_sisa_outside`, `C26_sisa_never_better_refuted`, `C28_assembly_partial`, `C28_complete_epoch_delivered_partial`, `C28_zero_total_refuted`, `C28_short_payload_refuted`, `C28_week_jump_refuted`, `C30_station_partial`, `C30_foreign_message_refuted`, `C35_rawx_converted`, `C35_measurement`, `C35_pseudorange`, `C35_epoch_time`, `C35_tow_not_rolled_over_refuted`, `C35_pseudorange_range_refuted`, `C38_odometry`, `C38_imu`, `C38_aux_every_20`, `C38_odo_time`, `C38_wheel_time`, `C38_imu_time`, `C38_gyro_scale`, `C38_acc_scale`, `C38_temperature`, `C38_wheels_mixed_refuted`, `C38_counter_wrap_refuted`, `C38_time_truncated_refuted`, `C39_short_frame_refuted`, `C40_delivery`, `C40_chunking`, `C41_output`, `C41_acceleration`, `C41_rotation`, `C41_velocity`, `C41_velocity_ub_refuted`, `C44_time_string_never_overrun`, `C44_every_sentence`, `C45_only_from_its_messages`, `C45_one_epoch_partial`, `C45_not_twice_in_a_row`, `C45_at_most_once_partial`, `C45_complete_epoch_is_sent_partial`, `C45_fused_mixed_refuted`, `C45_twice_at_the_switch_refuted`, `C45_week_start_missed_refuted`, `C46_rate_is_respected`, `C46_rate_zero_disables`, `C46_every_rth_epoch_partial`, `C46_one_in_r_partial`, `C46_period`, `C46_early_epochs_refuted`, `C46_other_refuted`, `C46_week_rollover_refuted`, `C47_gsa`, `C47_gsv`, `C48_mode`, `C48_never_back`, `C48_fused_request_refuted`, `C48_fused_request_never_served`, `C49_rounding_partial`, `C49_within_leap_second_partial`, `C49_before_leap_second_refuted`, `C50_list_is_a_prefix_of_one_epoch`, `C50_capacity`, `C50_gsa_when_complete_partial`, `C50_incomplete_refuted`, `C50_invalid_listed_refuted`, `C54_carrier_phase`, `C54_doppler`, `C54_doppler_wraps_refuted`, `C54_phase_overflow_refuted`, `C54_nan_refuted`, `C55_field_count`, `C56_content`, `C56_reserved_fix_aborts_refuted`, `C57_gps_round_trip_partial`, `C57_gps_l2_flags_refuted`, `C57_gal_round_trip_partial`, `C57_bds_round_trip_partial`, `C57_bds_week_start_refuted`, `C57_glo_round_trip_partial`, `C57_glo_uninitialised_refuted`, `C57_gal_iodnav_refuted`, `C57_out_of_range_undefined_refuted`, `C58_gps_values`, `C58_qzss_values`, `C58_qzss_valid_flag_refuted`, `C58_gal_values`, `C58_bds_values`, `C58_glo_values`, `C58_glo_iod`, `C58_glo_iod_distinct`, `C59_observations_partial`, `C59_empty_refuted`, `C60_time_known`, `C60_time_not_repeated`, `C60_velocity_mode`, `C60_position_values_partial`, `C60_velocity_values_partial`, `C60_attitude_values`, `C60_ephemeris_values`, `C60_accuracy_refuted`, `C60_ins_ppp_refuted`, `C61_measurements_partial`, `C61_epson_refuted`, `C61_error_refuted`, `C61_aux_first`, `C61_aux_period_partial`, `C61_aux_refuted`, `C62_position`, `C62_hnr_position_partial`, `C62_attitude_partial`, `C62_hnr_attitude_partial`, `C62_velocity_partial`, `C62_one_source`, `C62_shared_refuted`, `C62_velocity_accuracy_refuted`, `C62_velocity_mode_refuted`, `C62_fix_ok_refuted`, `C63_satellites_partial`, `C63_cn0_refuted`, `C63_unknown_system_refuted`, `C63_forward`, `C64_offset`, `C64_only`, `C64_week_unknown`, `C65_obs_to_msm_and_back`, `C65_strong_signal_refuted`, `C65_phase_ambiguity_refuted`, `C65_far_code_refuted`, `C65_long_range_refuted`, `C66_base_position_out`, `C66_base_position_in_and_back`, `C66_nan_height_refuted`, `C66_far_coordinate_refuted`, `C67_biases_out_and_back`, `C67_biases_in_and_back`, `C67_receiver_table`, `C68_obs_to_legacy_and_back_partial`, `C68_pseudorange_refuted`, `C68_p_code_refuted`, `C68_undefined_conversion_refuted`, `C68_32_satellites_refuted`, `C68_33_first_signals_refuted`, `C68_no_leap_second_refuted`, `C73_newer_epoch_in_doubles`, `C73_msm_timeout_in_doubles_partial`, `C73_msm_timeout_whole_seconds`, `C73_refuted_exactly_five_seconds`, `C75_wrapped_messages`, `C75_observations_assembled`, `C75_observation_epoch_partial`, `C75_large_epoch_refuted`, `C75_slow_caller_refuted`, `C75_glonass_phase_refuted`, `C76_gps_received`, `C76_gps_partial`, `C76_gps_reference_times_refuted`, `C76_inav_partial`, `C76_fnav_partial`, `C76_gal_source_refuted`, `C76_bds_partial`, `C76_glo_partial`, `C76_gps_relay_partial`, `C76_inav_relay_partial`, `C76_fnav_relay_partial`, `C76_bds_relay_partial`, `C76_glo_relay_partial`, `C76_gps_clock_overflow_refuted`, `C76_glo_unknown_leap_refuted`, `C78_received_msm_partial`, `C78_ordinary_msm_partial`, `C78_unknown_channel_refuted`, `C78_high_cn0_refuted`, `C78_negative_range_refuted`, `C78_high_rate_refuted`, `C79_options_partial`, `C79_sbas_last_refuted`, `C79_sbas_swallows_refuted`, `C79_negative_code_refuted`, `C79_rest_ignored_refuted`, `C80_received_legacy_partial`, `C80_ordinary_legacy_partial`, `C80_invalid_range_refuted`, `C80_unknown_channel_refuted`, `C80_negative_range_refuted`, `C81_epochs_received_partial`, `C81_one_msm_epoch_partial`, `C81_quiet_messages`, `C81_week_start_refuted`, `C81_unconverted_alone_refuted`, `C82_epoch_arrives_partial`, `C82_stream_arrives_partial`, `C82_messages_arrive_partial`, `C82_sender_refuted`, `C82_qzss_only_refuted`, `C82_week_start_refuted`, `C83_stream_followed_partial`, `C83_steady_stream_partial`, `C83_glonass_every_minute_refuted`, `C84_pipe_partial`, `C84_steady_pipe_partial`, `C84_items`, `C84_relay_partial`, `C84_glonass_phases_lost_refuted`, `C85_messages_well_formed`, `C85_any_bytes`, `C85_no_value_without_flag`, `C86_settled_epoch_unchanged`, `C86_second_pass_unchanged`, `C86_order_refuted`, `C87_observations_apart`, `C87_others_apart`, `C87_epochs_among_others_partial`, `C89_others_alone`, `C89_observations_apart`, `C89_one_sender`
