# Axioms per theorem

Written by `tools/axioms.py` from `Print Assumptions`.  All axioms are those of Coq's standard library.

## Closed under the global context (908 theorems)

C01_altitude, C01_antitone, C01_equal_times_return_lower, C01_exact_at_lower, C01_exact_at_upper, C01_monotone, C01_reproduces_affine_signals, C01_stays_in_bracket, C01_usbl, C02_dvl_heading_short_arc, C02_sensor_heading_short_arc, C03_bracketed, C03_in_range, C03_retained_prefix, C04_camera_bracket, C07_steady_rates, C08_additive_over_time, C08_constant_acceleration, C08_constant_velocity, C08_linear_in_velocity, C08_one_position_per_sample, C08_position_is_area_under_velocity, C09_counts_seconds, C09_date_round_trip, C09_epoch_to_day, C09_every_second_counted, C09_microseconds, C09_next_second, C09_text_round_trip, C09_timezone_shift, C102_camera_heading_refuted, C103_extrapolated_refuted, C103_in_range_sample_dropped_refuted, C103_mixes_track_ends_refuted, C104_first_bracket_refuted, C107_steady_rates_refuted, C109_epoch_to_day_refuted, C10_loaded_offset_is_standard, C10_numbers_agree, C110_bst_refuted, C110_cet_refuted, C110_unknown_name_refuted, C111_nested_names_refuted, C112_missing_seconds_refuted, C112_short_fraction_refuted, C113_trimmed_blanks_refuted, C114_empty_refuted, C114_text_order_refuted, C118_after_end_refuted, C119_after_dead_reckoning_refuted, C119_same_stamp_refuted, C11_file_list_complete, C11_one_to_one, C11_outside_is_rejected, C11_replaces_one_component, C11_there_and_back, C121_sum_to_one_refuted, C122_equal_weights_refuted, C122_zero_offset_refuted, C123_altitude_frozen, C123_depth_refuted, C124_crash_refuted, C124_fix_skipped_refuted, C125_first_sample_refuted, C125_last_interval_refuted, C125_unordered_refuted, C126_acfr_cfg_refuted, C126_convert_camera_refuted, C126_convert_centre_refuted, C126_convert_rerun_overwrites, C126_correct_plots_refuted, C126_merge_refuted, C126_never_parsed_refuted, C126_process_relative_refuted, C127_false_pair_refuted, C127_independent_refuted, C128_single_pair_refuted, C129_no_right_image, C129_no_right_image_refuted, C129_right_once_refuted, C12_decodes_encoded_instant, C12_other_characters_ignored, C130_dump_error, C130_dump_refuted, C131_broken_refuted, C131_check_is_dead, C131_heading_refuted, C131_stale_heading_refuted, C131_unbound_refuted, C132_epoch_refuted, C132_refuted, C133_last_refuted, C133_orientation_refuted, C133_orientation_shifted, C134_stereo_attitude, C134_stereo_refuted, C134_vehicle_origin, C134_vehicle_refuted, C136_axes_refuted, C136_camera_name_refuted, C136_linear_std_refuted, C136_linear_usbl_refuted, C136_tide_never, C136_tide_refuted, C136_velocity_stamp_refuted, C137_comma_refuted, C137_cov_missing_refuted, C137_cov_step_refuted, C137_payload_frame_refuted, C137_payload_list_refuted, C137_single_refuted, C137_synced_velocity_refuted, C139_biocam_laser_refuted, C139_body_stamp_refuted, C139_camera2_refuted, C139_default_window_refuted, C13_accepted_iff_checksum, C13_blanked_character_rejected, C13_replaced_character_rejected, C140_biocam_laser_refuted, C141_camera_origin_refuted, C141_camera_refuted, C141_mounting_refuted, C141_payload_refuted, C141_payloads_refuted, C141_usbl_options_refuted, C142_ignore_zeroes_refuted, C142_saturated_refuted, C144_clipped_refuted, C146_trailing_bytes_refuted, C147_deep_images_refuted, C147_rosbag_refuted, C147_xviii_range_refuted, C148_ambiguous_refuted, C148_empty_crop_refuted, C148_empty_refuted, C149_aligned_refuted, C149_top_images_refuted, C14_permutation, C14_time_order, C14_with_origin, C151_projection_refuted, C151_projection_unchanged, C151_scaled, C151_stereo_refuted, C152_determines_refuted, C152_reflexive_refuted, C155_monotone_refuted, C155_single_refuted, C156_refuted, C157_all_dives_refuted, C157_each_once_refuted, C158_best_refuted, C158_last_refuted, C160_bare_stem_refuted, C160_substring_refuted, C161_caller_told_refuted, C161_recovered_write_refuted, C161_recovered_writes_raise, C162_depth_mixes_ends_refuted, C162_in_range_sample_dropped_refuted, C164_offset_sign_refuted, C164_rosbag_zone_refuted, C164_zone_sign_refuted, C166_first_state_refuted, C166_single_state_dropped, C167_starts_at_usbl_offset_refuted, C168_backwards, C168_between_refuted, C168_double_gap_refuted, C168_first_gap_refuted, C168_heading_refuted, C169_order_refuted, C16_correction_reduces_uncertainty, C16_covariance, C16_prediction, C16_smoothing_symmetric, C16_states_recorded, C170_gap_refuted, C170_names_refuted, C170_sign_refuted, C171_no_depth, C171_total_refuted, C172_laser_name_refuted, C172_system_refuted, C172_system_unused, C173_best_fit_refuted, C174_images_nan, C174_images_refuted, C175_same_stem_refuted, C176_grey_manual_refuted, C176_red_offset_refuted, C178_single, C178_single_refuted, C178_slow_fixes_refuted, C17_gate, C17_rejected_leave_no_trace, C17_report, C180_early_refuted, C180_no_attitude_refuted, C181_altitude_late, C181_altitude_stale_refuted, C181_attitude_late, C181_depth_refuted, C181_midnight_refuted, C18_completes, C18_state_for_every_query, C18_stops_at_end, C18_time_order, C18_used_once_in_order, C19_altitude_bracketed, C19_no_image_lost, C19_own_state, C200_biocam_refuted, C201_time, C202_fraction_refuted, C203_both, C203_dots, C203_laser, C203_laser_files, C203_serial, C203_stereo, C204_ambiguous_refuted, C204_empty_line_refuted, C204_last_missing_refuted, C204_serial_refuted, C205_at_dvl, C205_converted, C205_laser_folder, C205_lever_arms, C205_log, C205_log_files, C205_log_in_order, C205_log_stamp, C205_names, C205_poses, C205_positions, C205_records_used, C205_speed_filter, C205_speed_identity, C205_speed_kept, C205_stamp, C206_first_depth_refuted, C206_first_image_refuted, C206_heading_refuted, C206_log_names_refuted, C206_log_refuted, C206_no_laser_refuted, C206_speed_refuted, C207_add_edge, C207_add_vertex, C207_any_depth, C207_edges, C207_found, C207_path, C208_add_edge_refuted, C208_shortest_refuted, C208_undirected_refuted, C208_vertices_refuted, C209_any_order, C209_bins, C209_cover, C209_depth, C209_distance, C209_increasing, C209_samples, C209_small_bin, C209_smoothed, C209_too_few, C209_value, C210_fallback_refuted, C210_largest_refuted, C210_nine_refuted, C210_range_refuted, C210_sample_refuted, C211_at_most_500, C211_cache, C211_cloud, C211_names, C211_pairs, C211_shuffle, C211_strata, C211_times, C212_cache_refuted, C212_fractional_refuted, C212_no_points_refuted, C212_second_laser_refuted, C212_shared_refuted, C212_synchronised_refuted, C212_unpaired_refuted, C215_cleared, C215_export, C216_acfr_empty, C217_blanks, C217_cti, C217_polpred, C218_header_refuted, C218_last_digit_refuted, C218_std_refuted, C219_json, C219_names, C219_stereo, C219_times, C219_views, C21_distribution, C21_neff, C21_reordered, C220_order_refuted, C220_prefix_refuted, C220_reuse_refuted, C220_shared_refuted, C223_association, C223_gga, C223_log, C223_nothing_lost, C223_row, C223_values, C224_fraction_refuted, C224_midnight_refuted, C225_boards, C225_padding, C226_size_refuted, C227_again, C227_consistent, C227_force, C227_keeps, C227_laser, C227_own, C227_pair, C227_suffix_form, C227_third, C228_bottom_refuted, C228_few_refuted, C228_folder_refuted, C228_laser_refuted, C228_resized_refuted, C228_reverse_refuted, C228_second_pair_refuted, C22_proportional, C22_same_size_copies, C22_total, C231_all, C231_box, C231_each, C231_minutes, C231_simplify, C231_squidle, C232_antimeridian_refuted, C232_kinds_refuted, C232_sixty_refuted, C232_twice_refuted, C235_acfr, C235_extract, C235_frame, C235_gopro, C235_name, C235_records, C235_roundtrip, C236_close_refuted, C236_exact_refuted, C236_other_refuted, C236_start_refuted, C236_stereo_refuted, C237_developed_name, C237_manual_name, C237_parse_finishes, C237_parse_frame, C237_parse_keeps, C237_parse_then_process, C237_process, C237_process_finishes, C237_process_keeps, C237_shared, C238_bag_never, C238_bag_refuted, C238_brightness_refuted, C238_correct_here_refuted, C238_correct_never, C238_correct_refuted, C238_manual_refuted, C238_order_refuted, C238_stale_refuted, C238_version0_refuted, C239_again, C239_camera, C239_colour, C239_config, C239_defaults, C239_entry_name, C239_file, C239_folder, C239_keeps, C239_loaded, C239_system, C239_writes, C23_position_kept, C23_recorded_content, C240_found_refuted, C240_gains_refuted, C240_metres_never, C240_metres_refuted, C240_no_default_refuted, C240_rescale_refuted, C240_rosbag_refuted, C240_type_refuted, C241_apart, C241_covariance, C241_ekf, C241_files, C241_finished, C241_flags, C241_mixed, C241_off, C241_payload_names, C241_posed, C241_sections, C241_shipped, C241_sidescan, C241_spp, C241_spp_files, C241_std, C242_flag_refuted, C242_matrix_refuted, C242_no_usbl_refuted, C242_payload_lost_refuted, C242_payload_name_refuted, C242_relative_refuted, C242_same_name_refuted, C242_section_refuted, C242_sections_needed, C242_single_refuted, C242_spp_refuted, C242_std_refuted, C243_again, C243_completed, C243_finishes, C243_frame, C243_missing, C243_no_section, C243_others, C243_size, C243_sources, C243_written, C244_completed_refuted, C244_extension_refuted, C244_format_refuted, C244_method_refuted, C244_own_row_refuted, C244_quits_late_refuted, C244_same_output_refuted, C244_twice_refuted, C245_chain, C245_mono, C245_number, C245_refused, C245_six_decimals, C245_stereo, C246_rational_refuted, C246_small_refuted, C246_stereo_to_str_refuted, C246_to_str_refuted, C247_finishes, C247_propagation, C247_refused, C247_subtraction, C248_at_dvl_refuted, C248_columns_lost_refuted, C248_dropped_row_refuted, C248_end_refuted, C248_one_image_refuted, C248_other_covariance_refuted, C248_two_cameras_refuted, C248_unknown_end_refuted, C24_no_early_fix, C24_samples_once, C24_time_order, C253_acfr, C253_file, C253_line, C253_lost, C253_negative, C253_only, C253_others, C253_short, C253_std, C254_blank_refuted, C254_second_refuted, C254_south_refuted, C254_std_refuted, C255_jobs, C256_figures_refuted, C256_one_cpu_refuted, C257_centre, C257_columns, C257_file, C257_nothing, C257_row, C257_stops, C258_dvl_refuted, C258_longitude_refuted, C258_missing_refuted, C258_rest_refuted, C258_second_refuted, C25_only_depth, C25_tide, C261_lasers, C261_pairs, C261_parsed, C261_poses, C261_times, C262_clock_refuted, C262_dots_refuted, C262_first_refuted, C262_folder_refuted, C262_format_refuted, C262_light_refuted, C262_name_refuted, C262_parts_refuted, C262_position_refuted, C262_short, C262_text_refuted, C263_loaded, C263_order, C263_range, C263_sample, C263_space, C263_statistics, C263_total, C263_uniform, C263_used, C264_alike_refuted, C264_alpha_refuted, C264_grey_refuted, C264_own_mean_refuted, C264_sizes_refuted, C264_white_refuted, C265_detections, C265_ply, C266_ply_refuted, C266_precision_refuted, C266_size_refuted, C26_acfr_guard, C26_convert_frame, C26_correct_keeps, C26_correct_writes, C26_parse_force, C26_parse_keeps, C26_parse_missing, C26_process_keeps, C26_skip_condition, C271_canonical, C271_lines, C271_order, C271_removed, C271_some, C271_unique, C272_case_refuted, C272_deep_refuted, C272_hidden_refuted, C272_link_refuted, C279_files, C279_kept, C279_logs, C279_others, C279_refused, C27_after_empty_dives, C27_first_dive, C27_second_dive_stale, C280_cut_refuted, C280_empty_refuted, C280_folder_refuted, C280_group_refuted, C283_acfr, C283_mounted, C283_payloads, C283_seaxerocks, C283_version_1, C284_format_refuted, C284_origin_refuted, C284_path_refuted, C284_payload_refuted, C284_version_refuted, C285_all, C285_duration, C285_exits, C285_points, C285_raises, C285_rate, C285_rows, C286_fast_refuted, C286_frame_refuted, C286_origin_refuted, C286_rate_refuted, C286_second_refuted, C289_no_table, C289_other_cells, C289_times, C289_trailing, C289_unlisted, C28_clock, C28_order, C28_succeeds, C290_last_name_refuted, C290_missing_refuted, C290_short_index_refuted, C290_twice_refuted, C290_unpadded_refuted, C291_listed, C291_lower, C291_stops, C292_case_refuted, C292_comma_refuted, C292_gray_refuted, C292_transparent_refuted, C293_codes, C293_folder, C293_others, C294_case_refuted, C294_hidden_refuted, C294_mono_refuted, C294_same_folder_refuted, C295_brightness, C295_contrast, C295_defined, C295_mirror, C295_plain, C296_contrast_refuted, C296_outside_refuted, C296_slope_refuted, C297_integers, C297_refused, C297_samples, C298_columns_refuted, C298_epoch_refuted, C298_integers_refuted, C298_offset_refuted, C299_complete, C299_cycles, C299_parts, C29_pairs, C300_cycle_refuted, C300_turn_refuted, C301_all, C301_bags, C301_pictures, C301_raw, C301_topic, C302_empty_refuted, C302_extension_refuted, C302_raw_refuted, C302_sizes_refuted, C303_drawn, C303_kept, C303_pixel, C304_bits_refuted, C304_same_refuted, C304_stale_refuted, C305_files, C305_loads, C305_settings, C305_shipped, C306_detection_refuted, C306_empty_refuted, C306_points_refuted, C307_bag, C307_bag_list, C307_images, C307_list, C308_bags_refuted, C308_folders_refuted, C309_again, C309_longer, C309_pairs, C30_decimal, C30_decimal_only, C30_dump, C30_gaps, C30_hybis, C310_again_refuted, C310_board_refuted, C310_shift_refuted, C310_unread_refuted, C313_box, C313_box_corners, C313_planes, C313_pyramid, C313_taken, C314_refuted, C31_cycles, C32_in_order, C32_nothing_invented, C33_time_first, C33_velocity_altitude, C34_numbering, C34_stereo, C34_vehicle, C35_others_in_order, C35_rdi_fresh, C35_rdi_velocity, C36_altitude, C36_depth, C36_inertial, C36_linear, C36_linear_axes, C36_linear_depth, C36_linear_orientation, C36_linear_usbl, C36_orientation, C36_stereo, C36_tide, C36_usbl, C36_velocity, C37_camera_round_trip, C37_columns, C37_cov, C37_names, C37_payload, C37_rows, C37_synced_round_trip, C38_exactly_once, C38_injective, C38_recover, C38_upper_triangle, C39_body_stamp, C39_body_velocity, C39_default_window, C39_exactly_the_window, C39_image_stamps, C39_stamps_inside, C40_count, C40_every_record, C40_merges, C40_origins_rejected, C41_camera_exact, C41_camera_frames, C41_mission, C41_sensor, C41_sensor_exact, C41_version, C42_array, C42_files, C42_order_free, C42_running, C42_unique, C44_8bit_error, C44_8bit_monotone, C44_8bit_range, C44_increasing, C44_monotone, C44_range, C44_statistics, C44_targets, C46_injective, C46_lossless, C46_surjective, C47_default, C47_float32, C47_xviii, C48_crop_inside, C48_footprint, C48_no_altitude, C48_nonempty, C48_own_altitude, C48_size_kept, C49_bins, C49_bins_used, C49_depth_maps, C49_every_image_binned, C49_one_bin, C49_selection, C51_intrinsics, C51_project, C51_size, C52_dives, C52_means, C52_reflexive, C52_symmetric, C52_transitive, C53_goal, C53_last, C55_monotone, C55_piecewise, C55_polls, C55_ready, C56_schedule, C56_snapshot, C57_manual_doubles, C57_one_dive, C57_only_last_dive, C58_best, C58_columns, C58_detected, C58_inside, C58_one, C58_which_columns, C60_stem, C60_trim, C61_attempts, C61_error_reported, C62_synchronised, C64_common_convention, C66_recursion, C66_smoothed_covariance, C66_smoothed_run, C67_prior_ignores_usbl, C68_coordinate, C68_gaps, C68_image, C68_no_latitude, C68_on_record, C68_output, C68_rows, C68_single_gap, C68_too_few, C69_range, C70_chain, C70_displacement, C71_crash, C71_values, C72_crash, C72_pps, C72_records, C73_mean_of_inliers, C73_smallest_signed_error, C74_trimmed, C75_filelist, C76_colour_total, C76_order_irrelevant, C77_black_point, C77_grey, C77_identity, C77_invertible, C78_constant, C78_regular, C78_settled, C78_zero_mean, C80_attitude, C80_kept, C80_track, C81_altitude, C81_attitude, C81_clock, C81_complete, C81_depth, C81_inertial, C81_std, C81_velocity, C82_alr_altitude, C82_alr_depth, C82_alr_fix, C82_alr_velocity, C82_autosub_scalar, C82_autosub_velocity, C82_koyo_fix, C82_koyo_orientation, C82_koyo_scalar, C82_koyo_velocity, C83_any_order_partial, C83_backwards_refuted, C83_fix_refuted, C83_no_position_refuted, C83_zone_refuted, C86_attitude, C86_depth, C86_position, C87_long_label, C87_one_bad_line_refuted, C87_text_label, C87_text_label_refuted, C87_two_digits_refuted, C90_missing_camera, C90_offsets, C90_old_format, C91_fourth_camera, C91_heading_lost_refuted, C91_named_frame_ignored, C91_named_frame_refuted, C91_no_offsets_refuted, C92_beginning, C92_folder, C92_one_star, C92_stamps, C92_two_stars, C93_folder_between_refuted, C93_name_partial, C93_name_refuted, C93_no_folder_refuted, C93_two_folders_refuted, C94_depth, C94_orientation, C94_run, C94_types, C94_usbl, C94_velocity, C95_each_axis_refuted, C95_heading_refuted, C95_origin_refuted, C95_sign_refuted, C96_round_trip, C96_start, C96_std, C99_format_decides, C99_records, C99_sections, C99_time_order, C99_unchanged, C99_unsupported, C99_variant

## `ClassicalDedekindReals.sig_forall_dec` (10 theorems)

C201_altitude, C224_closest_refuted, C224_file_refuted, C224_job_refuted, C224_range_refuted, C225_outside, C226_sideways_refuted, C275_default, C275_loader, C276_set_up_refuted

## `ClassicalDedekindReals.sig_forall_dec`, `FunctionalExtensionality.functional_extensionality_dep` (70 theorems)

C150_pairs_refuted, C153_best_refuted, C153_inliers_refuted, C201_depth, C201_depth_followed, C201_ins_tilted, C201_orientation, C202_constant_depth_refuted, C202_heading_refuted, C202_offset_refuted, C202_whole_seconds_refuted, C213_scaled, C215_altitude, C216_timezone_refuted, C221_shrink, C225_area, C225_points, C225_square, C226_square_refuted, C226_wide_refuted, C231_clock, C255_figures, C267_algebra, C269_concatenate, C269_same, C269_tolerance, C269_translation, C270_chain_refuted, C270_far_refuted, C270_symmetric_refuted, C273_bin, C273_majority, C273_mean, C273_median, C273_order, C274_channels_refuted, C274_colour_refuted, C274_missing_refuted, C274_one_channel_refuted, C275_load, C275_missing, C275_no_depth, C275_parse, C275_round_trip, C276_acfr_refuted, C276_close_refuted, C276_late_refuted, C276_unopened_refuted, C276_zone_refuted, C277_altitudes, C277_detected, C277_images, C277_made, C277_on_plane, C277_project, C277_swath, C277_undistort, C278_behind_refuted, C278_last_row_refuted, C278_on_row_refuted, C278_plane_refuted, C278_rectify_refuted, C278_step_refuted, C45_final_range, C50_pairs, C50_positive, C54_three_points, C84_altitude, C85_midnight_refuted, C85_zone_refuted

## `ClassicalDedekindReals.sig_forall_dec`, `ClassicalDedekindReals.sig_not_dec`, `FunctionalExtensionality.functional_extensionality_dep` (194 theorems)

C05_identity_when_level, C05_linear, C05_preserves_dot, C05_preserves_length, C05_preserves_orientation, C05_whole_turns_do_not_matter, C05_yaw_after_pitch_after_roll, C06_horizontal_round_trip, C06_round_trip, C07_adds_rotation_cross_arm, C07_centre_velocity, C07_no_arm, C07_no_rotation, C07_opposite_arm_undoes, C07_orthogonal, C106_round_trip_refuted, C107_centre_velocity_refuted, C107_lever_arm_term_doubled, C154_behind_refuted, C154_build_plane, C154_build_plane_refuted, C154_from_coeffs, C154_plane_refuted, C15_kept_iff_reachable, C15_kept_only_if_depth_agrees, C15_short_records_vanish, C15_subsequence, C15_total, C163_nonnegative_refuted, C201_speed, C201_velocity, C20_idempotent, C20_same_direction, C20_wrap, C213_dlt, C213_lst, C213_lst_defined, C213_ned, C213_uncertainty, C214_ends_refuted, C214_second_laser_refuted, C215_depth, C215_speed, C215_velocity, C216_acfr_refuted, C216_deviation_refuted, C216_no_data_refuted, C216_pressure_refuted, C216_unknown_refuted, C217_nmea, C218_degrees_refuted, C218_fraction_refuted, C218_label_refuted, C221_mono, C221_stereo, C221_stereo_few, C221_stereo_once, C222_alignment_refuted, C222_equal_refuted, C222_lost_refuted, C222_maps_refuted, C222_rectified_refuted, C222_stale_refuted, C223_mrt, C223_record, C223_records, C224_alone_refuted, C224_clock_refuted, C225_corners, C225_radius, C226_radius_refuted, C229_axis, C229_distance, C229_nearest, C229_ray, C229_rotation, C230_axis_refuted, C230_behind_refuted, C230_metres_refuted, C230_mirror_refuted, C230_parallel_refuted, C230_turned_refuted, C231_bottom, C231_distance, C232_excursion_refuted, C232_order_refuted, C233_drift, C233_sag, C233_straight, C233_turned, C233_uniform, C234_first_refuted, C234_origin_refuted, C234_two_refuted, C23_displacement, C23_same_frame, C255_pixel, C255_target, C256_bright_refuted, C256_small_refuted, C256_width_refuted, C265_axis, C265_inliers, C265_length, C265_raises, C265_spread, C265_threshold, C265_written, C266_inliers_refuted, C266_mean_refuted, C266_three_refuted, C266_threshold_refuted, C267_about, C267_back, C267_conjugate, C267_euler, C267_every, C267_names, C267_product, C267_quaternion, C267_random, C267_rotation, C267_sign, C267_tuples, C269_line, C269_minus, C269_mirror, C269_nearest, C269_perspective, C269_projection, C269_pseudo, C269_reflection, C269_rescaled, C269_rotation, C269_scale, C273_train, C277_round_trip, C281_close, C281_looks, C281_stereo, C281_vehicle, C281_vehicle_tilt, C282_stereo_refuted, C282_vehicle_refuted, C287_composed, C287_shear, C287_shear_volume, C288_shear_refuted, C311_axes, C311_defined, C311_edges, C312_angles_refuted, C312_first_refuted, C315_back, C315_constrain, C315_constrain_none, C315_nearest, C315_pick, C315_sphere, C43_fallback_is_identity, C43_inverts_the_curve, C43_monotone, C43_neutral_at_target, C43_no_zero_division, C54_parallel, C54_ray, C54_same_plane, C54_unit, C63_level, C63_level_north, C63_norm, C65_position_step, C65_rates_constant, C81_turn, C82_alr_orientation, C82_autosub_orientation, C84_speed, C84_velocity, C85_lock_partial, C85_no_lock_refuted, C88_camera, C88_camera_between, C88_camera_ekf, C88_measurements, C88_start, C89_ekf_altitude, C89_ekf_altitude_refuted, C89_ekf_latlon, C89_ekf_latlon_refuted, C89_pf, C89_pf_depth_refuted, C89_track_point, C89_track_refuted, C97_at_target

## `ClassicalDedekindReals.sig_forall_dec`, `ClassicalDedekindReals.sig_not_dec`, `Classical_Prop.classic`, `FunctionalExtensionality.functional_extensionality_dep` (110 theorems)

C143_infinite_start_refuted, C145_local_refuted, C145_range_refuted, C159_near_refuted, C179_mounting_refuted, C179_std_refuted, C213_pitch_yaw, C213_plane_angle, C214_sign_refuted, C215_orientation, C215_usbl, C216_fix_refuted, C216_latitude_refuted, C216_stale_refuted, C21_likelihood, C225_move, C225_parameters, C225_skew, C229_zero, C234_spot_refuted, C249_koyo, C249_koyo_whole, C249_name_close, C249_name_distinct, C249_offset_close, C249_offset_distinct, C249_ros_close, C249_ros_distinct, C249_ros_order, C249_same_instant, C249_same_instant_ms, C249_starts_before, C250_koyo_refuted, C250_ros_distinct_refuted, C251_close, C251_close_at_end, C251_constant, C251_dead_reckoning, C251_every_fix, C251_exact_at_start, C251_layer, C251_layer_outside, C251_monotone, C251_no_zero_division, C251_yaw, C252_end_refuted, C252_layer_refuted, C252_yaw_refuted, C259_compass, C259_depth, C259_fix, C259_images, C259_only, C259_order, C259_velocity, C260_bearing_refuted, C260_below_refuted, C260_blank_refuted, C260_missing_refuted, C260_order_refuted, C260_twice_refuted, C260_unknown_refuted, C267_angles, C267_ends, C267_exact, C267_same, C267_slerp, C268_case_refuted, C268_jump_refuted, C268_middle_refuted, C268_spin_refuted, C269_axis, C269_recovered, C287_parts, C287_ranges, C287_recomposed, C287_refused, C288_flat_refuted, C288_mirror_refuted, C288_pitch_refuted, C288_tiny_refuted, C315_axis, C315_drag, C315_next, C315_runs, C315_settings, C315_unit, C316_clear_refuted, C316_down_refuted, C43_brightens_far_images, C43_darkens_near_images, C43_initial_guess, C45_monotone, C45_range, C59_gimbal, C59_near, C59_regular, C65_euler_rates, C65_jacobian_is_derivative, C79_heading, C79_near, C79_ranges, C79_rotation, C79_scale, C79_std, C79_tiny, C97_distance, C97_levels, C97_order, C98_brighter_image_refuted
