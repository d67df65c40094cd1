{
 "claims": [
  {
   "property": "C01",
   "status": "proved",
   "theorems": [
    "C01_exact_at_lower",
    "C01_exact_at_upper",
    "C01_equal_times_return_lower",
    "C01_stays_in_bracket",
    "C01_monotone",
    "C01_antitone",
    "C01_reproduces_affine_signals",
    "C01_altitude",
    "C01_usbl"
   ],
   "note": "Exact rationals; floating-point rounding not modelled."
  },
  {
   "property": "C02",
   "status": "proved",
   "theorems": [
    "C02_dvl_heading_short_arc",
    "C02_sensor_heading_short_arc"
   ],
   "note": "Exact rationals. For cameras interpolated from another camera's track see C102."
  },
  {
   "property": "C03",
   "status": "proved",
   "theorems": [
    "C03_bracketed",
    "C03_retained_prefix",
    "C03_in_range"
   ],
   "note": "Exact rationals. All track samples have a covariance or none has. For the last track interval and for records that end earlier see C103."
  },
  {
   "property": "C04",
   "status": "proved",
   "theorems": [
    "C04_camera_bracket"
   ],
   "note": "Exact rationals; headings as numbers (see C102). For the first bracket see C104."
  },
  {
   "property": "C05",
   "status": "proved",
   "theorems": [
    "C05_yaw_after_pitch_after_roll",
    "C05_preserves_length",
    "C05_preserves_dot",
    "C05_preserves_orientation",
    "C05_linear",
    "C05_identity_when_level",
    "C05_whole_turns_do_not_matter"
   ],
   "note": ""
  },
  {
   "property": "C06",
   "status": "proved",
   "theorems": [
    "C06_round_trip",
    "C06_horizontal_round_trip"
   ],
   "note": "The exact condition, as an iff."
  },
  {
   "property": "C07",
   "status": "proved",
   "theorems": [
    "C07_steady_rates",
    "C07_adds_rotation_cross_arm",
    "C07_no_rotation",
    "C07_no_arm",
    "C07_orthogonal",
    "C07_opposite_arm_undoes",
    "C07_centre_velocity"
   ],
   "note": "Reals for the correction, rationals for the rates; two-sample tracks: all but the last sample. For the arm that processing passes see C107."
  },
  {
   "property": "C08",
   "status": "proved",
   "theorems": [
    "C08_position_is_area_under_velocity",
    "C08_one_position_per_sample",
    "C08_constant_velocity",
    "C08_constant_acceleration",
    "C08_additive_over_time",
    "C08_linear_in_velocity"
   ],
   "note": ""
  },
  {
   "property": "C09",
   "status": "proved",
   "theorems": [
    "C09_counts_seconds",
    "C09_every_second_counted",
    "C09_next_second",
    "C09_timezone_shift",
    "C09_microseconds",
    "C09_text_round_trip",
    "C09_date_round_trip",
    "C09_epoch_to_day"
   ],
   "note": "Exact rationals for sub-second parts. For the day on other computers see C109."
  },
  {
   "property": "C10",
   "status": "proved",
   "theorems": [
    "C10_loaded_offset_is_standard",
    "C10_numbers_agree"
   ],
   "note": "Names in one case (upper or lower). For bst and for names read by the parsers themselves see C110."
  },
  {
   "property": "C11",
   "status": "proved",
   "theorems": [
    "C11_replaces_one_component",
    "C11_there_and_back",
    "C11_one_to_one",
    "C11_outside_is_rejected",
    "C11_file_list_complete"
   ],
   "note": "Paths as lists of components."
  },
  {
   "property": "C12",
   "status": "proved",
   "theorems": [
    "C12_decodes_encoded_instant",
    "C12_other_characters_ignored"
   ],
   "note": "For shorter formats see C112."
  },
  {
   "property": "C13",
   "status": "proved",
   "theorems": [
    "C13_accepted_iff_checksum",
    "C13_replaced_character_rejected",
    "C13_blanked_character_rejected"
   ],
   "note": "Blanks are the characters Python strips. For blanks inside the line see C113."
  },
  {
   "property": "C14",
   "status": "proved",
   "theorems": [
    "C14_permutation",
    "C14_time_order",
    "C14_with_origin"
   ],
   "note": "For other stamps and no records see C114."
  },
  {
   "property": "C15",
   "status": "proved",
   "theorems": [
    "C15_total",
    "C15_subsequence",
    "C15_kept_only_if_depth_agrees",
    "C15_kept_iff_reachable",
    "C15_short_records_vanish"
   ],
   "note": "All theorems for arbitrary lists; depth agreement for time-ordered records. Exact reals, no rounding."
  },
  {
   "property": "C16",
   "status": "proved",
   "theorems": [
    "C16_covariance",
    "C16_states_recorded",
    "C16_correction_reduces_uncertainty",
    "C16_smoothing_symmetric",
    "C16_prediction"
   ],
   "note": "Any dimension, any real field, arbitrary operation histories; matrix inverses as given by mathcomp (total, 0 when singular)."
  },
  {
   "property": "C17",
   "status": "proved",
   "theorems": [
    "C17_gate",
    "C17_report",
    "C17_rejected_leave_no_trace"
   ],
   "note": "Exact gate (strictly below the threshold) and report counters for arbitrary histories."
  },
  {
   "property": "C18",
   "status": "proved",
   "theorems": [
    "C18_completes",
    "C18_used_once_in_order",
    "C18_time_order",
    "C18_state_for_every_query",
    "C18_stops_at_end"
   ],
   "note": "Any dimension and motion model. For the step after the end see C118."
  },
  {
   "property": "C19",
   "status": "proved",
   "theorems": [
    "C19_own_state",
    "C19_no_image_lost",
    "C19_altitude_bracketed"
   ],
   "note": "For images sharing a stamp and for states after the dead reckoning see C119."
  },
  {
   "property": "C20",
   "status": "proved",
   "theorems": [
    "C20_wrap",
    "C20_same_direction",
    "C20_idempotent"
   ],
   "note": "Reals; the recursion terminates for every input."
  },
  {
   "property": "C21",
   "status": "proved",
   "theorems": [
    "C21_distribution",
    "C21_likelihood",
    "C21_reordered",
    "C21_neff"
   ],
   "note": "Rationals for weights, reals for the likelihood. For vanishing likelihoods see C121."
  },
  {
   "property": "C22",
   "status": "proved",
   "theorems": [
    "C22_same_size_copies",
    "C22_proportional",
    "C22_total"
   ],
   "note": "For the offset 0 and the weights afterwards see C122."
  },
  {
   "property": "C23",
   "status": "proved",
   "theorems": [
    "C23_displacement",
    "C23_same_frame",
    "C23_recorded_content",
    "C23_position_kept"
   ],
   "note": "Explicit heap of shared arrays; arbitrary operation histories. For depth, attitude, velocity and altitude of earlier entries see C123."
  },
  {
   "property": "C24",
   "status": "proved",
   "theorems": [
    "C24_samples_once",
    "C24_time_order",
    "C24_no_early_fix"
   ],
   "note": "For fixes before the first sample see C124."
  },
  {
   "property": "C25",
   "status": "proved",
   "theorems": [
    "C25_tide",
    "C25_only_depth"
   ],
   "note": "For the ends of the record and unordered lists see C125."
  },
  {
   "property": "C26",
   "status": "proved",
   "theorems": [
    "C26_parse_keeps",
    "C26_parse_force",
    "C26_parse_missing",
    "C26_skip_condition",
    "C26_convert_frame",
    "C26_acfr_guard",
    "C26_process_keeps",
    "C26_correct_keeps",
    "C26_correct_writes"
   ],
   "note": "File system as a map from paths. For the remaining outputs see C126."
  },
  {
   "property": "C27",
   "status": "proved",
   "theorems": [
    "C27_first_dive",
    "C27_after_empty_dives",
    "C27_second_dive_stale"
   ],
   "note": "What happens to the later dives is the last theorem; see C127."
  },
  {
   "property": "C28",
   "status": "proved",
   "theorems": [
    "C28_clock",
    "C28_order",
    "C28_succeeds"
   ],
   "note": "The regression is an argument; rationals. For a single pair see C128."
  },
  {
   "property": "C29",
   "status": "proved",
   "theorems": [
    "C29_pairs"
   ],
   "note": "For right images used twice and dives without right images see C129."
  },
  {
   "property": "C30",
   "status": "proved",
   "theorems": [
    "C30_gaps",
    "C30_hybis",
    "C30_dump",
    "C30_decimal",
    "C30_decimal_only"
   ],
   "note": "For the USBL dump in the south and west see C130."
  },
  {
   "property": "C31",
   "status": "proved",
   "theorems": [
    "C31_cycles"
   ],
   "note": "For broken packets, other orders and headings through north see C131."
  },
  {
   "property": "C32",
   "status": "proved",
   "theorems": [
    "C32_in_order",
    "C32_nothing_invented"
   ],
   "note": "For clock steps back and times that are not positive see C132; for the contents of the records C82."
  },
  {
   "property": "C33",
   "status": "proved",
   "theorems": [
    "C33_velocity_altitude",
    "C33_time_first"
   ],
   "note": "For the last ensemble and attitudes in PD6 order see C133."
  },
  {
   "property": "C34",
   "status": "proved",
   "theorems": [
    "C34_stereo",
    "C34_numbering",
    "C34_vehicle"
   ],
   "note": "For attitudes, the right camera, the first pose and the origin of vehicle files see C134."
  },
  {
   "property": "C35",
   "status": "proved",
   "theorems": [
    "C35_rdi_fresh",
    "C35_rdi_velocity",
    "C35_others_in_order"
   ],
   "note": "Fully proved for the modelled reader."
  },
  {
   "property": "C36",
   "status": "proved",
   "theorems": [
    "C36_orientation",
    "C36_depth",
    "C36_inertial",
    "C36_altitude",
    "C36_usbl",
    "C36_stereo",
    "C36_velocity",
    "C36_linear",
    "C36_linear_axes",
    "C36_linear_usbl",
    "C36_linear_orientation",
    "C36_linear_depth",
    "C36_tide"
   ],
   "note": "JSON values as trees. For tides, the body velocity's own stamp and other readers see C136."
  },
  {
   "property": "C37",
   "status": "proved",
   "theorems": [
    "C37_rows",
    "C37_columns",
    "C37_names",
    "C37_camera_round_trip",
    "C37_synced_round_trip",
    "C37_payload",
    "C37_cov"
   ],
   "note": "pandas is modelled as splitting at commas. For the other cases see C137."
  },
  {
   "property": "C38",
   "status": "proved",
   "theorems": [
    "C38_upper_triangle",
    "C38_exactly_once",
    "C38_recover",
    "C38_injective"
   ],
   "note": "Fully proved, for matrices over any type."
  },
  {
   "property": "C39",
   "status": "proved",
   "theorems": [
    "C39_exactly_the_window",
    "C39_body_velocity",
    "C39_stamps_inside",
    "C39_body_stamp",
    "C39_image_stamps",
    "C39_default_window"
   ],
   "note": "For body velocity stamps, second cameras, BioCam lasers and unordered files see C139."
  },
  {
   "property": "C40",
   "status": "proved",
   "theorems": [
    "C40_every_record",
    "C40_count",
    "C40_merges",
    "C40_origins_rejected"
   ],
   "note": "For BioCam laser records see C140."
  },
  {
   "property": "C41",
   "status": "proved",
   "theorems": [
    "C41_sensor",
    "C41_sensor_exact",
    "C41_camera_exact",
    "C41_mission",
    "C41_version",
    "C41_camera_frames"
   ],
   "note": "YAML values as trees. For the other parts see C141."
  },
  {
   "property": "C42",
   "status": "proved",
   "theorems": [
    "C42_running",
    "C42_array",
    "C42_files",
    "C42_order_free",
    "C42_unique"
   ],
   "note": "Variances over the rationals. For saturated pixels and ignored zeroes see C142."
  },
  {
   "property": "C43",
   "status": "proved",
   "theorems": [
    "C43_no_zero_division",
    "C43_neutral_at_target",
    "C43_inverts_the_curve",
    "C43_monotone",
    "C43_brightens_far_images",
    "C43_darkens_near_images",
    "C43_fallback_is_identity",
    "C43_initial_guess"
   ],
   "note": "Over the reals, with the starting point of the fit for two different altitudes. The least-squares fit itself is not modelled. For samples at one altitude see C143."
  },
  {
   "property": "C44",
   "status": "proved",
   "theorems": [
    "C44_range",
    "C44_8bit_range",
    "C44_8bit_monotone",
    "C44_8bit_error",
    "C44_increasing",
    "C44_monotone",
    "C44_targets",
    "C44_statistics"
   ],
   "note": "Rationals; deviations as numbers whose square is the variance. For the mean after clipping see C144."
  },
  {
   "property": "C45",
   "status": "proved",
   "theorems": [
    "C45_monotone",
    "C45_range",
    "C45_final_range"
   ],
   "note": "Over the reals. For negative values and locality see C145."
  },
  {
   "property": "C46",
   "status": "proved",
   "theorems": [
    "C46_lossless",
    "C46_injective",
    "C46_surjective"
   ],
   "note": "For longer files see C146."
  },
  {
   "property": "C47",
   "status": "proved",
   "theorems": [
    "C47_default",
    "C47_float32",
    "C47_xviii"
   ],
   "note": "Exact model of rounding to single precision. For deeper images and the other loaders see C147."
  },
  {
   "property": "C48",
   "status": "proved",
   "theorems": [
    "C48_crop_inside",
    "C48_size_kept",
    "C48_footprint",
    "C48_nonempty",
    "C48_own_altitude",
    "C48_no_altitude"
   ],
   "note": "For extreme factors and ambiguous names see C148."
  },
  {
   "property": "C49",
   "status": "proved",
   "theorems": [
    "C49_selection",
    "C49_depth_maps",
    "C49_bins",
    "C49_bins_used",
    "C49_one_bin",
    "C49_every_image_binned"
   ],
   "note": "For the altitudes with depth maps and other ranges see C149."
  },
  {
   "property": "C50",
   "status": "proved",
   "theorems": [
    "C50_pairs",
    "C50_positive"
   ],
   "note": "For values missing at different places see C150."
  },
  {
   "property": "C51",
   "status": "proved",
   "theorems": [
    "C51_project",
    "C51_size",
    "C51_intrinsics"
   ],
   "note": "For project_point after resizing and stereo files see C151."
  },
  {
   "property": "C52",
   "status": "proved",
   "theorems": [
    "C52_means",
    "C52_symmetric",
    "C52_transitive",
    "C52_reflexive",
    "C52_dives"
   ],
   "note": "For other configurations and the parameters not compared see C152."
  },
  {
   "property": "C53",
   "status": "proved",
   "theorems": [
    "C53_last",
    "C53_goal"
   ],
   "note": "The singular value decomposition is specified on three points not on a line. For runs that reach the maximum and the inlier test of the returned model see C153."
  },
  {
   "property": "C54",
   "status": "proved",
   "theorems": [
    "C54_same_plane",
    "C54_unit",
    "C54_ray",
    "C54_parallel",
    "C54_three_points"
   ],
   "note": "Over the reals. For other normals, planes built from pitch and yaw and points behind a ray see C154."
  },
  {
   "property": "C55",
   "status": "proved",
   "theorems": [
    "C55_ready",
    "C55_piecewise",
    "C55_polls",
    "C55_monotone"
   ],
   "note": "For falling midpoints and a single poll see C155."
  },
  {
   "property": "C56",
   "status": "proved",
   "theorems": [
    "C56_schedule",
    "C56_snapshot"
   ],
   "note": "For the first camera's EKF poses see C156."
  },
  {
   "property": "C57",
   "status": "proved",
   "theorems": [
    "C57_only_last_dive",
    "C57_one_dive",
    "C57_manual_doubles"
   ],
   "note": "See C157 for the claim about several dives."
  },
  {
   "property": "C58",
   "status": "proved",
   "theorems": [
    "C58_best",
    "C58_detected",
    "C58_inside",
    "C58_columns",
    "C58_which_columns",
    "C58_one"
   ],
   "note": "For the window ending at the last row see C158."
  },
  {
   "property": "C59",
   "status": "proved",
   "theorems": [
    "C59_regular",
    "C59_gimbal",
    "C59_near"
   ],
   "note": "Over the reals. For exactness near gimbal lock see C159."
  },
  {
   "property": "C60",
   "status": "proved",
   "theorems": [
    "C60_stem",
    "C60_trim"
   ],
   "note": "For bare stems with dots and rescaling see C160."
  },
  {
   "property": "C61",
   "status": "proved",
   "theorems": [
    "C61_attempts",
    "C61_error_reported"
   ],
   "note": "For the return value and writes that succeed on a later attempt see C161."
  },
  {
   "property": "C62",
   "status": "proved",
   "theorems": [
    "C62_synchronised"
   ],
   "note": "For the dropped record and times before the first depth see C162."
  },
  {
   "property": "C63",
   "status": "proved",
   "theorems": [
    "C63_level_north",
    "C63_norm",
    "C63_level"
   ],
   "note": "The code rotates them like a velocity; see C163."
  },
  {
   "property": "C64",
   "status": "proved",
   "theorems": [
    "C64_common_convention"
   ],
   "note": "For the other four see C164."
  },
  {
   "property": "C65",
   "status": "proved",
   "theorems": [
    "C65_jacobian_is_derivative",
    "C65_position_step",
    "C65_euler_rates",
    "C65_rates_constant"
   ],
   "note": "Away from gimbal lock (cos pitch <> 0); reals; uses Coquelicot's is_derive."
  },
  {
   "property": "C66",
   "status": "proved",
   "theorems": [
    "C66_smoothed_covariance",
    "C66_recursion",
    "C66_smoothed_run"
   ],
   "note": "From the invertibility the smoother needs. For the first state and runs of a single state see C166."
  },
  {
   "property": "C67",
   "status": "proved",
   "theorems": [
    "C67_prior_ignores_usbl"
   ],
   "note": "The displacement by the mean USBL difference is added and subtracted again; see C167."
  },
  {
   "property": "C69",
   "status": "proved",
   "theorems": [
    "C69_range"
   ],
   "note": "For other orders see C169."
  },
  {
   "property": "C70",
   "status": "proved",
   "theorems": [
    "C70_chain",
    "C70_displacement"
   ],
   "note": "For gaps, other names and the direction see C170."
  },
  {
   "property": "C73",
   "status": "proved",
   "theorems": [
    "C73_smallest_signed_error",
    "C73_mean_of_inliers"
   ],
   "note": "For the fit see C173."
  },
  {
   "property": "C74",
   "status": "proved",
   "theorems": [
    "C74_trimmed"
   ],
   "note": "For a stack of images see C174."
  },
  {
   "property": "C75",
   "status": "proved",
   "theorems": [
    "C75_filelist"
   ],
   "note": "For images with the same stem see C175."
  },
  {
   "property": "C76",
   "status": "proved",
   "theorems": [
    "C76_order_irrelevant",
    "C76_colour_total"
   ],
   "note": "For manual balance of grey images and its subtractors see C176."
  },
  {
   "property": "C77",
   "status": "proved",
   "theorems": [
    "C77_black_point",
    "C77_identity",
    "C77_invertible",
    "C77_grey"
   ],
   "note": "Proved."
  },
  {
   "property": "C68",
   "status": "proved",
   "theorems": [
    "C68_coordinate",
    "C68_rows",
    "C68_no_latitude",
    "C68_gaps",
    "C68_single_gap",
    "C68_image",
    "C68_on_record",
    "C68_output",
    "C68_too_few"
   ],
   "note": "For the segment used, headings and other gaps see C168."
  },
  {
   "property": "C71",
   "status": "proved",
   "theorems": [
    "C71_values",
    "C71_crash"
   ],
   "note": "For other inputs see C171."
  },
  {
   "property": "C72",
   "status": "proved",
   "theorems": [
    "C72_records",
    "C72_pps",
    "C72_crash"
   ],
   "note": "For SYSTEM names and the names of laser records see C172."
  },
  {
   "property": "C78",
   "status": "proved",
   "theorems": [
    "C78_zero_mean",
    "C78_regular",
    "C78_constant",
    "C78_settled"
   ],
   "note": "For other fixes see C178."
  },
  {
   "property": "C79",
   "status": "proved",
   "theorems": [
    "C79_rotation",
    "C79_near",
    "C79_scale",
    "C79_ranges",
    "C79_heading",
    "C79_tiny",
    "C79_std"
   ],
   "note": "Over the reals. For sensors with a heading offset see C179."
  },
  {
   "property": "C80",
   "status": "proved",
   "theorems": [
    "C80_track",
    "C80_attitude",
    "C80_kept"
   ],
   "note": "For earlier records see C180."
  },
  {
   "property": "C81",
   "status": "proved",
   "theorems": [
    "C81_clock",
    "C81_complete",
    "C81_velocity",
    "C81_inertial",
    "C81_depth",
    "C81_std",
    "C81_attitude",
    "C81_altitude",
    "C81_turn"
   ],
   "note": "For other orders, broken messages and midnight see C181. The heading is not turned by the mounting angle (C81_turn)."
  },
  {
   "property": "C82",
   "status": "proved",
   "theorems": [
    "C82_alr_velocity",
    "C82_alr_orientation",
    "C82_alr_depth",
    "C82_alr_altitude",
    "C82_alr_fix",
    "C82_autosub_velocity",
    "C82_autosub_orientation",
    "C82_autosub_scalar",
    "C82_koyo_orientation",
    "C82_koyo_scalar",
    "C82_koyo_velocity",
    "C82_koyo_fix"
   ],
   "note": "Velocity, orientation, depth, altitude and position of the three parsers. The position in metres is left out (see C12)."
  },
  {
   "property": "C83",
   "status": "partial",
   "theorems": [
    "C83_any_order_partial",
    "C83_backwards_refuted",
    "C83_fix_refuted",
    "C83_no_position_refuted",
    "C83_zone_refuted"
   ],
   "note": "For any order: the measurements followed by a later one or by none are reported. Refuted: a step back replaces the measurement before it and the output is out of order; ALR fixes without depth and koyo21 rows without position are reported (NaN); koyo21 times use the computer's zone."
  },
  {
   "property": "C84",
   "status": "proved",
   "theorems": [
    "C84_velocity",
    "C84_speed",
    "C84_altitude"
   ],
   "note": "Rows are taken with decoded values; reading the table is left out."
  },
  {
   "property": "C85",
   "status": "partial",
   "theorems": [
    "C85_no_lock_refuted",
    "C85_lock_partial",
    "C85_midnight_refuted",
    "C85_zone_refuted"
   ],
   "note": "Refuted: -32 is not beyond the test for 32, so an unturned lock loss is reported as 32 m/s; a turned one is left out depending on the angle (C85_lock_partial). Times go back after midnight; times use the computer's zone."
  },
  {
   "property": "C86",
   "status": "proved",
   "theorems": [
    "C86_depth",
    "C86_position",
    "C86_attitude"
   ],
   "note": "Readers of dates, numbers, beacon numbers and sentences are arguments. The heading is not turned by the mounting angle."
  },
  {
   "property": "C87",
   "status": "partial",
   "theorems": [
    "C87_long_label",
    "C87_text_label",
    "C87_two_digits_refuted",
    "C87_text_label_refuted",
    "C87_one_bad_line_refuted"
   ],
   "note": "Refuted: labels of two or more characters never match a depth line (C87_long_label, for all logs); a quoted label never matches a position line (C87_text_label, for all logs); one damaged line aborts the parser."
  },
  {
   "property": "C88",
   "status": "proved",
   "theorems": [
    "C88_camera",
    "C88_camera_between",
    "C88_measurements",
    "C88_start",
    "C88_camera_ekf"
   ],
   "note": "Over the reals. Ground truth is a rigid body (place); the interpolation of the attitude itself is C02."
  },
  {
   "property": "C89",
   "status": "partial",
   "theorems": [
    "C89_ekf_altitude",
    "C89_ekf_latlon",
    "C89_pf",
    "C89_track_point",
    "C89_ekf_altitude_refuted",
    "C89_ekf_latlon_refuted",
    "C89_pf_depth_refuted",
    "C89_track_refuted"
   ],
   "note": "Refuted, each with the exact error for all inputs: EKF camera altitude (off by the height of the origin above the DVL), EKF camera latitude/longitude (those of the origin), PF camera depth and altitude (not moved to the origin), dead-reckoning velocity (that of the point at twice the DVL's offset)."
  },
  {
   "property": "C90",
   "status": "proved",
   "theorems": [
    "C90_offsets",
    "C90_missing_camera",
    "C90_old_format"
   ],
   "note": "YAML values are passed through unchanged; reading the YAML text is left out."
  },
  {
   "property": "C91",
   "status": "partial",
   "theorems": [
    "C91_named_frame_refuted",
    "C91_named_frame_ignored",
    "C91_heading_lost_refuted",
    "C91_no_offsets_refuted",
    "C91_fourth_camera"
   ],
   "note": "Refuted: the frame named for a sensor is checked to exist and then ignored (C91_named_frame_ignored, for all files in the present format); the old-format heading is lost when the origin is not in the old format; a frame without known keys counts as mounted at the origin; the fourth camera is ignored."
  },
  {
   "property": "C92",
   "status": "proved",
   "theorems": [
    "C92_folder",
    "C92_beginning",
    "C92_one_star",
    "C92_two_stars",
    "C92_stamps"
   ],
   "note": ""
  },
  {
   "property": "C93",
   "status": "partial",
   "theorems": [
    "C93_two_folders_refuted",
    "C93_no_folder_refuted",
    "C93_folder_between_refuted",
    "C93_name_partial",
    "C93_name_refuted"
   ],
   "note": "False: with several matching folders only the first one listed is used; with none there is an IndexError; folders between stars are ignored; names can collide or lose their first letter. The name is proved for topics that begin with a slash."
  },
  {
   "property": "C102",
   "status": "partial",
   "theorems": [
    "C102_camera_heading_refuted"
   ],
   "note": "Refuted: interpolate_camera has no wrap handling; between 350 and 10 it reports 180."
  },
  {
   "property": "C103",
   "status": "partial",
   "theorems": [
    "C103_in_range_sample_dropped_refuted",
    "C103_extrapolated_refuted",
    "C103_mixes_track_ends_refuted"
   ],
   "note": "Refuted: in the last track interval only one sample is kept; when the record ends before the next track sample, samples are extrapolated; when the whole record lies in the first track interval, the end of the track is mixed with its start. What holds is C03."
  },
  {
   "property": "C104",
   "status": "partial",
   "theorems": [
    "C104_first_bracket_refuted"
   ],
   "note": "Refuted: the test i > 1 should be i > 0; the pose jumps to the second sample."
  },
  {
   "property": "C107",
   "status": "partial",
   "theorems": [
    "C107_steady_rates_refuted",
    "C107_centre_velocity_refuted",
    "C107_lever_arm_term_doubled"
   ],
   "note": "Refuted: with this arm the term is doubled instead of removed (C107_lever_arm_term_doubled, for all inputs); the last sample of a two-sample track raises."
  },
  {
   "property": "C109",
   "status": "partial",
   "theorems": [
    "C109_epoch_to_day_refuted"
   ],
   "note": "Refuted: epoch_to_day uses local time."
  },
  {
   "property": "C110",
   "status": "partial",
   "theorems": [
    "C110_cet_refuted",
    "C110_bst_refuted",
    "C110_unknown_name_refuted"
   ],
   "note": "Refuted: the parsers' table gives cet the offset 0; bst is rejected by the loader; an unknown name raises UnboundLocalError."
  },
  {
   "property": "C111",
   "status": "partial",
   "theorems": [
    "C111_nested_names_refuted"
   ],
   "note": "Refuted: below a folder called raw, the raw counterpart of a processed path is the processed path itself."
  },
  {
   "property": "C112",
   "status": "partial",
   "theorems": [
    "C112_short_fraction_refuted",
    "C112_missing_seconds_refuted"
   ],
   "note": "Refuted: fractions of one or two digits are read as milliseconds; with a format without seconds no file name is decoded."
  },
  {
   "property": "C113",
   "status": "partial",
   "theorems": [
    "C113_trimmed_blanks_refuted"
   ],
   "note": "Refuted: trimming can remove characters whose exclusive-or is zero."
  },
  {
   "property": "C114",
   "status": "partial",
   "theorems": [
    "C114_text_order_refuted",
    "C114_empty_refuted"
   ],
   "note": "Refuted: stamps are sorted as text (10.0 before 9.0); an empty list raises."
  },
  {
   "property": "C118",
   "status": "partial",
   "theorems": [
    "C118_after_end_refuted"
   ],
   "note": "Refuted: a step from before the end to a measurement after it is still made. At most one such step: C18_stops_at_end."
  },
  {
   "property": "C119",
   "status": "partial",
   "theorems": [
    "C119_same_stamp_refuted",
    "C119_after_dead_reckoning_refuted"
   ],
   "note": "Refuted: the second of two images with one stamp is lost; a state after the last dead-reckoning sample raises and loses all."
  },
  {
   "property": "C121",
   "status": "partial",
   "theorems": [
    "C121_sum_to_one_refuted"
   ],
   "note": "Refuted: when the reweighted total is below 1e-20, a constant is added before the division and the weights sum to less than one half, which also prevents resampling. Such likelihoods occur (C21_likelihood)."
  },
  {
   "property": "C122",
   "status": "partial",
   "theorems": [
    "C122_zero_offset_refuted",
    "C122_equal_weights_refuted"
   ],
   "note": "Refuted: weights are copied with the particles; with offset 0 (which uniform() can return) a particle of weight 1/2 of two is lost."
  },
  {
   "property": "C123",
   "status": "partial",
   "theorems": [
    "C123_altitude_frozen",
    "C123_depth_refuted"
   ],
   "note": "Refuted: depth, attitude and velocity are overwritten by the next propagation (exactly: C23_recorded_content), and the altitude is always that of the prior (C123_altitude_frozen)."
  },
  {
   "property": "C124",
   "status": "partial",
   "theorems": [
    "C124_fix_skipped_refuted",
    "C124_crash_refuted"
   ],
   "note": "Refuted: the first fix in the span is skipped; with more early fixes than samples there is an IndexError."
  },
  {
   "property": "C125",
   "status": "partial",
   "theorems": [
    "C125_last_interval_refuted",
    "C125_first_sample_refuted",
    "C125_unordered_refuted"
   ],
   "note": "Refuted in the last interval, at the first sample and for unordered depths."
  },
  {
   "property": "C126",
   "status": "partial",
   "theorems": [
    "C126_never_parsed_refuted",
    "C126_merge_refuted",
    "C126_convert_centre_refuted",
    "C126_convert_camera_refuted",
    "C126_convert_rerun_overwrites",
    "C126_acfr_cfg_refuted",
    "C126_process_relative_refuted",
    "C126_correct_plots_refuted"
   ],
   "note": "Refuted: an existing empty processed folder counts as parsed; the merge output, converted camera and centre csv files, mission.cfg, results of relative-pose runs and plots are overwritten."
  },
  {
   "property": "C128",
   "status": "partial",
   "theorems": [
    "C128_single_pair_refuted"
   ],
   "note": "Refuted: with one pair it raises, whatever the number of laser images (C28_succeeds: exactly then)."
  },
  {
   "property": "C129",
   "status": "partial",
   "theorems": [
    "C129_right_once_refuted",
    "C129_no_right_image_refuted",
    "C129_no_right_image"
   ],
   "note": "Refuted: one right image is paired with two left images; without right images the BioCam and NTNU parsers raise (C129_no_right_image, always)."
  },
  {
   "property": "C130",
   "status": "partial",
   "theorems": [
    "C130_dump_error",
    "C130_dump_refuted"
   ],
   "note": "Refuted: in the south and west the result is off by twice the minutes (C130_dump_error, always)."
  },
  {
   "property": "C131",
   "status": "partial",
   "theorems": [
    "C131_check_is_dead",
    "C131_broken_refuted",
    "C131_heading_refuted",
    "C131_stale_heading_refuted",
    "C131_unbound_refuted"
   ],
   "note": "Refuted: broken packets are always reported (C131_check_is_dead: the flag never matters), headings through north, stale headings, unbound variables."
  },
  {
   "property": "C132",
   "status": "partial",
   "theorems": [
    "C132_refuted",
    "C132_epoch_refuted"
   ],
   "note": "Refuted: a step back breaks the order and loses an unrelated record; a first stamp of 0 raises."
  },
  {
   "property": "C133",
   "status": "partial",
   "theorems": [
    "C133_orientation_shifted",
    "C133_orientation_refuted",
    "C133_last_refuted"
   ],
   "note": "Refuted: the last ensemble is never reported; each attitude carries the previous ensemble's timestamp (C133_orientation_shifted, exactly)."
  },
  {
   "property": "C134",
   "status": "partial",
   "theorems": [
    "C134_stereo_attitude",
    "C134_vehicle_origin",
    "C134_vehicle_refuted",
    "C134_stereo_refuted"
   ],
   "note": "Refuted: attitudes are converted to degrees twice and turned (C134_stereo_attitude, exactly); the right camera comes back at the left one's place; the vehicle header is one line short, so the first pose is lost and the origin is wrong (C134_vehicle_origin, always)."
  },
  {
   "property": "C136",
   "status": "partial",
   "theorems": [
    "C136_camera_name_refuted",
    "C136_velocity_stamp_refuted",
    "C136_linear_usbl_refuted",
    "C136_axes_refuted",
    "C136_linear_std_refuted",
    "C136_tide_never",
    "C136_tide_refuted"
   ],
   "note": "Refuted: no tide record can be read back (C136_tide_never); the stamp becomes the DVL's; a single image is only read as camera1; the linear model gives negative deviations for negative velocities."
  },
  {
   "property": "C137",
   "status": "partial",
   "theorems": [
    "C137_single_refuted",
    "C137_comma_refuted",
    "C137_synced_velocity_refuted",
    "C137_payload_frame_refuted",
    "C137_payload_list_refuted",
    "C137_cov_step_refuted",
    "C137_cov_missing_refuted"
   ],
   "note": "Refuted, each with a witness."
  },
  {
   "property": "C139",
   "status": "partial",
   "theorems": [
    "C139_body_stamp_refuted",
    "C139_camera2_refuted",
    "C139_biocam_laser_refuted",
    "C139_default_window_refuted"
   ],
   "note": "Refuted: the stamps of body velocities (DVL clock) and of the second camera can be outside, BioCam laser records get no stamp, and the default window loses records when the file is not in time order."
  },
  {
   "property": "C140",
   "status": "partial",
   "theorems": [
    "C140_biocam_laser_refuted"
   ],
   "note": "Refuted: BioCam laser records have no file name of their own and raise KeyError."
  },
  {
   "property": "C141",
   "status": "partial",
   "theorems": [
    "C141_usbl_options_refuted",
    "C141_mounting_refuted",
    "C141_camera_refuted",
    "C141_camera_origin_refuted",
    "C141_payload_refuted",
    "C141_payloads_refuted"
   ],
   "note": "Refuted: USBL options, mounting frames, camera topic and second offset, cameras without a frame, payloads."
  },
  {
   "property": "C142",
   "status": "partial",
   "theorems": [
    "C142_saturated_refuted",
    "C142_ignore_zeroes_refuted"
   ],
   "note": "Refuted, each with a witness."
  },
  {
   "property": "C143",
   "status": "partial",
   "theorems": [
    "C143_infinite_start_refuted"
   ],
   "note": "Refuted: two samples at the same altitude give infinite parameters."
  },
  {
   "property": "C144",
   "status": "partial",
   "theorems": [
    "C144_clipped_refuted"
   ],
   "note": "Refuted: clipping moves it."
  },
  {
   "property": "C145",
   "status": "partial",
   "theorems": [
    "C145_range_refuted",
    "C145_local_refuted"
   ],
   "note": "Refuted: black becomes negative, and one formula is chosen for the whole image."
  },
  {
   "property": "C146",
   "status": "partial",
   "theorems": [
    "C146_trailing_bytes_refuted"
   ],
   "note": "Refuted: trailing bytes are ignored."
  },
  {
   "property": "C147",
   "status": "partial",
   "theorems": [
    "C147_deep_images_refuted",
    "C147_xviii_range_refuted",
    "C147_rosbag_refuted"
   ],
   "note": "Refuted: deeper images round to 1, XVIII pixels above the bit depth, bag images of another depth."
  },
  {
   "property": "C148",
   "status": "partial",
   "theorems": [
    "C148_empty_refuted",
    "C148_empty_crop_refuted",
    "C148_ambiguous_refuted"
   ],
   "note": "Refuted: empty images and crops for extreme factors; the altitude is looked up by substring, so image_12 is ambiguous with image_1."
  },
  {
   "property": "C149",
   "status": "partial",
   "theorems": [
    "C149_aligned_refuted",
    "C149_top_images_refuted"
   ],
   "note": "Refuted: the altitude list is not shortened with the images; images near the maximum are in no bin when the range is not a whole number of bins."
  },
  {
   "property": "C150",
   "status": "partial",
   "theorems": [
    "C150_pairs_refuted"
   ],
   "note": "Refuted when an altitude and an intensity are missing at different places."
  },
  {
   "property": "C151",
   "status": "partial",
   "theorems": [
    "C151_projection_unchanged",
    "C151_projection_refuted",
    "C151_scaled",
    "C151_stereo_refuted"
   ],
   "note": "Refuted: the whole projection matrix is multiplied, so projections do not change (C151_projection_unchanged, always); a stereo calibration file ignores the ratio."
  },
  {
   "property": "C152",
   "status": "partial",
   "theorems": [
    "C152_reflexive_refuted",
    "C152_determines_refuted"
   ],
   "note": "Refuted: without a colour section the comparison raises, with nan it is not reflexive; the training altitude range is not compared."
  },
  {
   "property": "C153",
   "status": "partial",
   "theorems": [
    "C153_best_refuted",
    "C153_inliers_refuted"
   ],
   "note": "Refuted: the last iteration's inliers are returned, refitted to their first three points."
  },
  {
   "property": "C154",
   "status": "partial",
   "theorems": [
    "C154_from_coeffs",
    "C154_plane_refuted",
    "C154_behind_refuted",
    "C154_build_plane",
    "C154_build_plane_refuted"
   ],
   "note": "Refuted: the normal, a view, is divided twice (C154_from_coeffs gives the plane obtained); build_plane contains its point iff both tangents vanish or the parallel plane through the origin does (C154_build_plane); the intersection may be behind."
  },
  {
   "property": "C155",
   "status": "partial",
   "theorems": [
    "C155_monotone_refuted",
    "C155_single_refuted"
   ],
   "note": "Refuted: only the first BioCam time of a poll is checked for order; a single poll cannot correct anything."
  },
  {
   "property": "C156",
   "status": "partial",
   "theorems": [
    "C156_refuted"
   ],
   "note": "Refuted for the first camera's EKF poses when SLAM output is on."
  },
  {
   "property": "C158",
   "status": "partial",
   "theorems": [
    "C158_last_refuted",
    "C158_best_refuted"
   ],
   "note": "Refuted: the window ending at the last row of the range is not tried."
  },
  {
   "property": "C159",
   "status": "partial",
   "theorems": [
    "C159_near_refuted"
   ],
   "note": "Refuted within the tolerance of gimbal lock."
  },
  {
   "property": "C160",
   "status": "partial",
   "theorems": [
    "C160_bare_stem_refuted",
    "C160_substring_refuted"
   ],
   "note": "Refuted: bare stems with dots are missed; rescaling matches by substring."
  },
  {
   "property": "C161",
   "status": "partial",
   "theorems": [
    "C161_caller_told_refuted",
    "C161_recovered_write_refuted",
    "C161_recovered_writes_raise"
   ],
   "note": "Refuted: the returned path is the same after failure; a recovered write raises, always."
  },
  {
   "property": "C162",
   "status": "partial",
   "theorems": [
    "C162_in_range_sample_dropped_refuted",
    "C162_depth_mixes_ends_refuted"
   ],
   "note": "Refuted: the first in-range record is dropped when exactly one orientation precedes the velocity record, and depth before its first sample mixes last and first sample."
  },
  {
   "property": "C164",
   "status": "partial",
   "theorems": [
    "C164_zone_sign_refuted",
    "C164_offset_sign_refuted",
    "C164_rosbag_zone_refuted"
   ],
   "note": "Refuted for RDI, ROS bags, Voyis and Sonardyne text."
  },
  {
   "property": "C166",
   "status": "partial",
   "theorems": [
    "C166_first_state_refuted",
    "C166_single_state_dropped"
   ],
   "note": "Refuted for the first state; and a run of a single state is smoothed to nothing (C166_single_state_dropped)."
  },
  {
   "property": "C168",
   "status": "partial",
   "theorems": [
    "C168_first_gap_refuted",
    "C168_double_gap_refuted",
    "C168_backwards",
    "C168_between_refuted",
    "C168_heading_refuted"
   ],
   "note": "Refuted: except in the last segment the parser uses the segment after the image and extends it backwards (C168_backwards, always); headings are interpolated the long way round; a zero in the first record is filled from the last record, a double gap with a line to zero."
  },
  {
   "property": "C169",
   "status": "partial",
   "theorems": [
    "C169_order_refuted"
   ],
   "note": "Refuted when the end comes before the start."
  },
  {
   "property": "C170",
   "status": "partial",
   "theorems": [
    "C170_gap_refuted",
    "C170_names_refuted",
    "C170_sign_refuted"
   ],
   "note": "Refuted for gaps in the numbers, for names without a number, and for the sign of the displacement."
  },
  {
   "property": "C171",
   "status": "partial",
   "theorems": [
    "C171_total_refuted",
    "C171_no_depth"
   ],
   "note": "Refuted: an IndexError when the last altitude is not after the first depth; with fewer than two depths always (C171_no_depth)."
  },
  {
   "property": "C172",
   "status": "partial",
   "theorems": [
    "C172_system_unused",
    "C172_laser_name_refuted",
    "C172_system_refuted"
   ],
   "note": "Refuted: SYSTEM names are never recognised because a slice of three characters is compared with six, so the SYSTEM times are never used (C172_system_unused); laser records carry the names of stills images."
  },
  {
   "property": "C173",
   "status": "partial",
   "theorems": [
    "C173_best_fit_refuted"
   ],
   "note": "Refuted: errors of opposite sign cancel, a sample whose inliers all lie below it wins against one without error."
  },
  {
   "property": "C174",
   "status": "partial",
   "theorems": [
    "C174_images_refuted",
    "C174_images_nan"
   ],
   "note": "Refuted: nothing is left after trimming (C174_images_nan, always)."
  },
  {
   "property": "C175",
   "status": "partial",
   "theorems": [
    "C175_same_stem_refuted"
   ],
   "note": "Refuted: two images with the same stem in different folders share one output."
  },
  {
   "property": "C176",
   "status": "partial",
   "theorems": [
    "C176_red_offset_refuted",
    "C176_grey_manual_refuted"
   ],
   "note": "Refuted: manual balance of grey images raises; the red subtractor is applied to blue."
  },
  {
   "property": "C178",
   "status": "partial",
   "theorems": [
    "C178_single",
    "C178_single_refuted",
    "C178_slow_fixes_refuted"
   ],
   "note": "Refuted: a single fix inside the track stops the program (C178_single, always), and slower fixes that start before the track are compared with the wrong part of it. The first fix is never used."
  },
  {
   "property": "C179",
   "status": "partial",
   "theorems": [
    "C179_mounting_refuted",
    "C179_std_refuted"
   ],
   "note": "Refuted: apply_offset turns (roll, pitch, yaw) as if it were a vector, so an offset of 90 degrees leaves the heading and can make the roll deviation negative."
  },
  {
   "property": "C180",
   "status": "partial",
   "theorems": [
    "C180_no_attitude_refuted",
    "C180_early_refuted"
   ],
   "note": "Refuted: with several velocities between the first two orientations only one is dropped and the rest are published without attitude, and a velocity before the first orientation is put on the line through the last and the first one."
  },
  {
   "property": "C181",
   "status": "partial",
   "theorems": [
    "C181_midnight_refuted",
    "C181_depth_refuted",
    "C181_attitude_late",
    "C181_altitude_late",
    "C181_altitude_stale_refuted"
   ],
   "note": "Refuted: stale depth time and stale altitude around broken messages, the date after midnight. In logs with TIME after the attitude or LOGDVL before LOGIN_ records come one cycle late (C181_attitude_late, C181_altitude_late, always)."
  },
  {
   "property": "C94",
   "status": "proved",
   "theorems": [
    "C94_depth",
    "C94_types",
    "C94_velocity",
    "C94_usbl",
    "C94_orientation",
    "C94_run"
   ],
   "note": "Over any real closed field, with body_to_inertial as a parameter (its geometry is C05 and C88); samples without NaN. Discharges the hypothesis on measurement builders of C18 and C66."
  },
  {
   "property": "C95",
   "status": "partial",
   "theorems": [
    "C95_each_axis_refuted",
    "C95_sign_refuted",
    "C95_heading_refuted",
    "C95_origin_refuted"
   ],
   "note": "Refuted: only the first standard deviation is looked at, so a zero one of another axis is used; the noise of angles is proportional to the signed angle; the USBL range is measured from the origin of the local frame."
  },
  {
   "property": "C96",
   "status": "proved",
   "theorems": [
    "C96_std",
    "C96_round_trip",
    "C96_start"
   ],
   "note": "Over any real closed field, pi any positive number."
  },
  {
   "property": "C97",
   "status": "proved",
   "theorems": [
    "C97_levels",
    "C97_distance",
    "C97_at_target",
    "C97_order"
   ],
   "note": "Real arithmetic; NaN is not modelled; OpenCV's debayering, channel exchange and undistortion are an argument (C97_levels, C97_distance) or left out (C97_order)."
  },
  {
   "property": "C98",
   "status": "partial",
   "theorems": [
    "C98_brighter_image_refuted"
   ],
   "note": "Refuted: one bright pixel switches the formula for the whole image and a level 9 becomes 0."
  },
  {
   "property": "C99",
   "status": "proved",
   "theorems": [
    "C99_sections",
    "C99_variant",
    "C99_format_decides",
    "C99_records",
    "C99_unchanged",
    "C99_time_order",
    "C99_unsupported"
   ],
   "note": "The parsers are arguments; the correction of BioCam times is assumed to return the records in order (C28)."
  },
  {
   "property": "C200",
   "status": "partial",
   "theorems": [
    "C200_biocam_refuted"
   ],
   "note": "Refuted: biocam4000_15c is read by the same parser but not corrected."
  },
  {
   "property": "C106",
   "status": "partial",
   "theorems": [
    "C106_round_trip_refuted"
   ],
   "note": "Refuted: wrong factor in inertial_to_body.py:70."
  },
  {
   "property": "C127",
   "status": "partial",
   "theorems": [
    "C127_independent_refuted",
    "C127_false_pair_refuted"
   ],
   "note": "Refuted: the stereo parsers keep timestamps in module globals; stale stamps and false pairs."
  },
  {
   "property": "C157",
   "status": "partial",
   "theorems": [
    "C157_all_dives_refuted",
    "C157_each_once_refuted"
   ],
   "note": "Refuted: only the last dive is used for colour correction; lists are doubled for manual balance."
  },
  {
   "property": "C163",
   "status": "partial",
   "theorems": [
    "C163_nonnegative_refuted"
   ],
   "note": "Refuted: the rotated standard deviation can be negative."
  },
  {
   "property": "C167",
   "status": "partial",
   "theorems": [
    "C167_starts_at_usbl_offset_refuted"
   ],
   "note": "Refuted: the displacement is added and subtracted again."
  },
  {
   "property": "C201",
   "status": "proved",
   "theorems": [
    "C201_time",
    "C201_velocity",
    "C201_speed",
    "C201_altitude",
    "C201_orientation",
    "C201_ins_tilted",
    "C201_depth",
    "C201_depth_followed"
   ],
   "note": "ftype oplab; pandas' reading of the table is outside the model, values are reals, dvl_validBottom an integer or NaN."
  },
  {
   "property": "C202",
   "status": "partial",
   "theorems": [
    "C202_fraction_refuted",
    "C202_whole_seconds_refuted",
    "C202_offset_refuted",
    "C202_heading_refuted",
    "C202_constant_depth_refuted"
   ],
   "note": "Refuted: '.5' is read as 5 ms; whole seconds raise; the velocity section's offset is used for every category; heading 360 is kept; repeated depths are not reported."
  },
  {
   "property": "C203",
   "status": "proved",
   "theorems": [
    "C203_stereo",
    "C203_dots",
    "C203_laser",
    "C203_laser_files",
    "C203_serial",
    "C203_both"
   ],
   "note": "ftype oplab; lines already stripped; int() of digits only; the disk is a predicate on paths."
  },
  {
   "property": "C204",
   "status": "partial",
   "theorems": [
    "C204_empty_line_refuted",
    "C204_last_missing_refuted",
    "C204_ambiguous_refuted",
    "C204_serial_refuted"
   ],
   "note": "Refuted: an empty stereo line raises IndexError; the naming convention is guessed from the last image only, wrongly if it is missing or numbered 1111xxx; a leading slash stays in the serial."
  },
  {
   "property": "C205",
   "status": "proved",
   "theorems": [
    "C205_stamp",
    "C205_log_stamp",
    "C205_log",
    "C205_log_in_order",
    "C205_positions",
    "C205_records_used",
    "C205_poses",
    "C205_converted",
    "C205_lever_arms",
    "C205_at_dvl",
    "C205_speed_filter",
    "C205_speed_kept",
    "C205_speed_identity",
    "C205_names",
    "C205_laser_folder",
    "C205_log_files"
   ],
   "note": "Values exact rationals, NaN as None; csv and pandas reading give rows (None for a row that fails); body_to_inertial and the lat/lon conversions are parameters assumed linear where needed (body_to_inertial is, C05)."
  },
  {
   "property": "C206",
   "status": "partial",
   "theorems": [
    "C206_log_refuted",
    "C206_first_depth_refuted",
    "C206_heading_refuted",
    "C206_no_laser_refuted",
    "C206_log_names_refuted",
    "C206_speed_refuted",
    "C206_first_image_refuted"
   ],
   "note": "Refuted: the first row of each log only sets the reference time; a zero in the first position is extrapolated from the last and second; 359 to 1 degrees gives 180; an empty list of kept images raises; the glob [!FIX] excludes any name ending in F, I or X; a NaN position hides a jump; the first record is paired with the last (index -1), whose NaN spoils it."
  },
  {
   "property": "C207",
   "status": "proved",
   "theorems": [
    "C207_path",
    "C207_found",
    "C207_any_depth",
    "C207_edges",
    "C207_add_vertex",
    "C207_add_edge"
   ],
   "note": "Vertices are numbers; the dictionary is a list of keys with neighbour lists; set.pop takes an arbitrary element."
  },
  {
   "property": "C208",
   "status": "partial",
   "theorems": [
    "C208_add_edge_refuted",
    "C208_undirected_refuted",
    "C208_vertices_refuted",
    "C208_shortest_refuted"
   ],
   "note": "Refuted: add_edge makes a set of the pair and pops it, so the direction is arbitrary; only one end becomes a key; the search is depth first."
  },
  {
   "property": "C209",
   "status": "proved",
   "theorems": [
    "C209_bins",
    "C209_cover",
    "C209_small_bin",
    "C209_distance",
    "C209_value",
    "C209_smoothed",
    "C209_depth",
    "C209_any_order",
    "C209_samples",
    "C209_increasing",
    "C209_too_few"
   ],
   "note": "One pixel; exact rationals (np.arange accumulates no rounding); trimmed mean, median, RANSAC smoothing and the random sample are arguments; figures and memory map files left out."
  },
  {
   "property": "C210",
   "status": "partial",
   "theorems": [
    "C210_largest_refuted",
    "C210_range_refuted",
    "C210_nine_refuted",
    "C210_sample_refuted",
    "C210_fallback_refuted"
   ],
   "note": "Refuted: images at the largest altitude, beyond the last edge or in bins of nine are unused; a random sample of the images keeps the distance of the whole bin; a zero mean is replaced by altitude_min plus the bin offset, outside the bin if the ranges differ."
  },
  {
   "property": "C211",
   "status": "proved",
   "theorems": [
    "C211_pairs",
    "C211_cloud",
    "C211_strata",
    "C211_shuffle",
    "C211_names",
    "C211_times",
    "C211_at_most_500",
    "C211_cache"
   ],
   "note": "Exact rationals; the triangulation and the rectification are arguments; shuffling is any permutation; image rectification and the detector are in C58 or external."
  },
  {
   "property": "C212",
   "status": "partial",
   "theorems": [
    "C212_synchronised_refuted",
    "C212_unpaired_refuted",
    "C212_shared_refuted",
    "C212_cache_refuted",
    "C212_second_laser_refuted",
    "C212_no_points_refuted",
    "C212_fractional_refuted"
   ],
   "note": "Refuted: up to 500 images all pairs in list order are processed, synchronised or not; beyond, an unpaired image ends in IndexError; an image without detections makes the cache unreadable; a cache written with one laser gives no points for the second; two left images can share a right one."
  },
  {
   "property": "C213",
   "status": "proved",
   "theorems": [
    "C213_lst",
    "C213_lst_defined",
    "C213_dlt",
    "C213_ned",
    "C213_plane_angle",
    "C213_pitch_yaw",
    "C213_uncertainty",
    "C213_scaled"
   ],
   "note": "Real arithmetic; numpy.linalg.svd is its contract (a unit vector minimising the residual); min_dist > 0, that is, the inliers are not all equal in y and z."
  },
  {
   "property": "C214",
   "status": "partial",
   "theorems": [
    "C214_second_laser_refuted",
    "C214_ends_refuted",
    "C214_sign_refuted"
   ],
   "note": "Refuted: self.uncertainty_planes is not emptied between the lasers, so the second laser always gets the planes of the first; inliers on a line never give a plane; at 90 degrees the sign of the normal decides."
  },
  {
   "property": "C215",
   "status": "proved",
   "theorems": [
    "C215_velocity",
    "C215_speed",
    "C215_altitude",
    "C215_depth",
    "C215_orientation",
    "C215_usbl",
    "C215_export",
    "C215_cleared"
   ],
   "note": "Over the reals; geographiclib is an argument. For what goes wrong see C216."
  },
  {
   "property": "C216",
   "status": "partial",
   "theorems": [
    "C216_acfr_empty",
    "C216_acfr_refuted",
    "C216_timezone_refuted",
    "C216_unknown_refuted",
    "C216_deviation_refuted",
    "C216_no_data_refuted",
    "C216_pressure_refuted",
    "C216_latitude_refuted",
    "C216_fix_refuted",
    "C216_stale_refuted"
   ],
   "note": "Refuted nine ways: acfr output is always empty; the time zone's hours are scaled by 60; messages after an unknown type are dropped; deviations are turned as a vector; a Teledyne -32768 is used; the pressure's deviation; the latitude's deviation; a satellite fix's variance as deviation; an Evologics fix keeps the deviations of the message before."
  },
  {
   "property": "C217",
   "status": "proved",
   "theorems": [
    "C217_blanks",
    "C217_polpred",
    "C217_cti",
    "C217_nmea"
   ],
   "note": "int() and float() of blank-padded decimals are modelled; pynmea2 and the geodesic solver are arguments."
  },
  {
   "property": "C218",
   "status": "partial",
   "theorems": [
    "C218_header_refuted",
    "C218_std_refuted",
    "C218_last_digit_refuted",
    "C218_fraction_refuted",
    "C218_label_refuted",
    "C218_degrees_refuted"
   ],
   "note": "Every part is false of the code: parse_tide_CTI.py:53-55 skips six lines, the parsers pass std_offset as the factor of Tide (sensors.py:1532), parse_tide_CTI.py:75-76 cuts the last character when there is no second comma, parse_NOC_nmea.py:64 reads the digits of the fraction as milliseconds, :52 compares a number with the label, and sensors.py:1357-1358 divides the depth (not the deviation) by 111111 and multiplies by the cosine."
  },
  {
   "property": "C219",
   "status": "proved",
   "theorems": [
    "C219_views",
    "C219_json",
    "C219_stereo",
    "C219_names",
    "C219_times"
   ],
   "note": "The parameters of a view, the blur test and the time stamps in names are arguments; names of the biocam form follow the same loop as those with a camera code."
  },
  {
   "property": "C220",
   "status": "partial",
   "theorems": [
    "C220_reuse_refuted",
    "C220_order_refuted",
    "C220_shared_refuted",
    "C220_prefix_refuted"
   ],
   "note": "Every part is false of the code: cal_from_json (camera_calibrator.py:528) empties good_corners but not db; the greedy choice depends on the order; 1010 and 1031 take the nearest right view even if it is already used; 974-977 look at the first name of each side."
  },
  {
   "property": "C221",
   "status": "proved",
   "theorems": [
    "C221_mono",
    "C221_shrink",
    "C221_stereo",
    "C221_stereo_once",
    "C221_stereo_few"
   ],
   "note": "OpenCV's solvers and the corner detection are arguments, with one error per view as hypothesis."
  },
  {
   "property": "C222",
   "status": "partial",
   "theorems": [
    "C222_alignment_refuted",
    "C222_equal_refuted",
    "C222_lost_refuted",
    "C222_rectified_refuted",
    "C222_maps_refuted",
    "C222_stale_refuted"
   ],
   "note": "Every part is false of the code: 1306 goes through db while good_corners has shrunk; 1320 is a strict comparison with mean plus twice a deviation of zero; 1255-1256 quits inside the recursion; 1339-1347 restores R, T, E and F but not the rectification of 1289; 845 makes the maps for the last solution; calibrations (517) is never emptied."
  },
  {
   "property": "C223",
   "status": "proved",
   "theorems": [
    "C223_values",
    "C223_nothing_lost",
    "C223_log",
    "C223_association",
    "C223_record",
    "C223_records",
    "C223_mrt",
    "C223_row",
    "C223_gga"
   ],
   "note": "strptime, float() of MRT values and the geodesy are arguments; the records' constants of the GGA variants are not modelled."
  },
  {
   "property": "C224",
   "status": "partial",
   "theorems": [
    "C224_job_refuted",
    "C224_range_refuted",
    "C224_closest_refuted",
    "C224_file_refuted",
    "C224_alone_refuted",
    "C224_midnight_refuted",
    "C224_fraction_refuted",
    "C224_clock_refuted"
   ],
   "note": "Every part is false of the code: 548-553 appends the previous observation again; 524-533 builds 20 values for 19 fields; 593-599 takes the first at or after; 639-640 globs the stem with an underscore; 656 reads an attribute of None; 275 takes the date from the file name; 824 is outside the try of the rows; 762 subtracts the offset that 620 adds."
  },
  {
   "property": "C225",
   "status": "proved",
   "theorems": [
    "C225_outside",
    "C225_area",
    "C225_skew",
    "C225_move",
    "C225_parameters",
    "C225_corners",
    "C225_square",
    "C225_radius",
    "C225_boards",
    "C225_points",
    "C225_padding"
   ],
   "note": "OpenCV's detectors and the refinement of corners are arguments; pixels are reals and the ratios of image sizes exact."
  },
  {
   "property": "C226",
   "status": "partial",
   "theorems": [
    "C226_radius_refuted",
    "C226_square_refuted",
    "C226_wide_refuted",
    "C226_sideways_refuted",
    "C226_size_refuted"
   ],
   "note": "Every part is false of the code: 195 and 203 index with row * n_rows instead of row * n_cols; 180-189 decide by one diagonal; 361-364 divide by width - border, which may be negative; 286-290 repeat the same dimensions; 485 compares only the height."
  },
  {
   "property": "C227",
   "status": "proved",
   "theorems": [
    "C227_suffix_form",
    "C227_consistent",
    "C227_keeps",
    "C227_own",
    "C227_again",
    "C227_force",
    "C227_pair",
    "C227_laser",
    "C227_third"
   ],
   "note": "Detection and solvers are functions of the images; files are named by what they hold, so that coinciding names are left out; so are missing entries in calibration.yaml. C219 is the equality of fresh and reloaded detections used."
  },
  {
   "property": "C228",
   "status": "partial",
   "theorems": [
    "C228_second_pair_refuted",
    "C228_reverse_refuted",
    "C228_resized_refuted",
    "C228_folder_refuted",
    "C228_few_refuted",
    "C228_bottom_refuted",
    "C228_laser_refuted"
   ],
   "note": "Refuted: the second pair is never calibrated once the first one is there; its other direction and the plane of the second laser are overwritten without -F; -FF keeps the calibration of a resized camera; the third camera is looked for in the raw folder only; one camera with fewer than eight images ends the run; laser ends without planes if it has to calibrate the first pair while the second is there."
  },
  {
   "property": "C229",
   "status": "proved",
   "theorems": [
    "C229_rotation",
    "C229_distance",
    "C229_zero",
    "C229_nearest",
    "C229_axis",
    "C229_ray"
   ],
   "note": "Real arithmetic; the optimiser is left out, as is whether numba accepts the array of points (its signature names a vector)."
  },
  {
   "property": "C230",
   "status": "partial",
   "theorems": [
    "C230_metres_refuted",
    "C230_axis_refuted",
    "C230_turned_refuted",
    "C230_parallel_refuted",
    "C230_mirror_refuted",
    "C230_behind_refuted"
   ],
   "note": "Refuted: the direction is normalised, so that the number is at most one at any distance; on the axis it is the cosine times the distance instead of the sine; an axis pointing backwards is turned round, which gives the mirror image; a ray parallel to a line of the cone divides by zero; mirror image and points behind the camera are returned."
  },
  {
   "property": "C231",
   "status": "proved",
   "theorems": [
    "C231_simplify",
    "C231_all",
    "C231_squidle",
    "C231_each",
    "C231_minutes",
    "C231_box",
    "C231_bottom",
    "C231_distance",
    "C231_clock"
   ],
   "note": "pandas is its contract: sort_values returns a permutation by time (not stable); missing columns and NaN are left out; thumbnails are only counted for the console."
  },
  {
   "property": "C232",
   "status": "partial",
   "theorems": [
    "C232_twice_refuted",
    "C232_kinds_refuted",
    "C232_sixty_refuted",
    "C232_antimeridian_refuted",
    "C232_excursion_refuted",
    "C232_order_refuted"
   ],
   "note": "Refuted: two folders of the table with a file of the same name give one image two rows; other pictures in the folder or capital extensions prevent the file; 59.9997 minutes are printed as 60.000; across the antimeridian the box goes round the globe; the way between two stays at the bottom counts; rows out of order lengthen the distance."
  },
  {
   "property": "C233",
   "status": "proved",
   "theorems": [
    "C233_drift",
    "C233_turned",
    "C233_straight",
    "C233_uniform",
    "C233_sag"
   ],
   "note": "Over the reals. Uncertainties and the USBL offset's value are left out (C78); the filters are elsewhere (C12-C23)."
  },
  {
   "property": "C234",
   "status": "partial",
   "theorems": [
    "C234_two_refuted",
    "C234_first_refuted",
    "C234_origin_refuted",
    "C234_spot_refuted"
   ],
   "note": "False: witnesses for all four parts. The lever-arm correction has the wrong sign (C89), the origin's position is interpolated linearly, one slice of compute_angular_speeds is missing, the first record is deleted when exactly one orientation is before the first velocity."
  },
  {
   "property": "C235",
   "status": "proved",
   "theorems": [
    "C235_frame",
    "C235_name",
    "C235_extract",
    "C235_records",
    "C235_roundtrip",
    "C235_acfr",
    "C235_gopro"
   ],
   "note": "float() is exact, unsigned decimals only; pixels are opaque."
  },
  {
   "property": "C236",
   "status": "partial",
   "theorems": [
    "C236_stereo_refuted",
    "C236_exact_refuted",
    "C236_start_refuted",
    "C236_close_refuted",
    "C236_other_refuted"
   ],
   "note": "False: witnesses for all five parts. Both lists of names are read from the first camera's folder, so an image is always nearest to itself; name[5:-5] cuts one digit too many."
  },
  {
   "property": "C237",
   "status": "proved",
   "theorems": [
    "C237_parse_keeps",
    "C237_parse_frame",
    "C237_shared",
    "C237_process_keeps",
    "C237_process",
    "C237_parse_then_process",
    "C237_process_finishes",
    "C237_parse_finishes",
    "C237_manual_name",
    "C237_developed_name"
   ],
   "note": "Image selection, parameter values and the developed image are arguments (modelled in SelectModel, BinModel, PipeModel); plots, logs, filelist.csv and empty folders are left out."
  },
  {
   "property": "C238",
   "status": "partial",
   "theorems": [
    "C238_correct_never",
    "C238_correct_refuted",
    "C238_correct_here_refuted",
    "C238_bag_refuted",
    "C238_bag_never",
    "C238_version0_refuted",
    "C238_manual_refuted",
    "C238_brightness_refuted",
    "C238_stale_refuted",
    "C238_order_refuted"
   ],
   "note": "False: witnesses for all parts. correct passes one text where parse expects a list of paths, and lacks the memmap arguments, so it never finishes with a configured camera (C238_correct_never); bag cameras read an attribute mission.image does not have (C238_bag_never)."
  },
  {
   "property": "C239",
   "status": "proved",
   "theorems": [
    "C239_camera",
    "C239_colour",
    "C239_config",
    "C239_system",
    "C239_entry_name",
    "C239_file",
    "C239_writes",
    "C239_keeps",
    "C239_loaded",
    "C239_again",
    "C239_defaults",
    "C239_folder"
   ],
   "note": "YAML files are the trees that safe_load makes of them; reading a timestamp file (FilenameToDate) is an argument; mission files of version 0 are not modelled. The shipped files are written out in DefaultsModel.v."
  },
  {
   "property": "C240",
   "status": "partial",
   "theorems": [
    "C240_type_refuted",
    "C240_found_refuted",
    "C240_no_default_refuted",
    "C240_rosbag_refuted",
    "C240_gains_refuted",
    "C240_metres_refuted",
    "C240_metres_never",
    "C240_rescale_refuted"
   ],
   "note": "False: witnesses for all parts. The type of a mission camera is never set; names with slashes are only rewritten on one side; unagi has no default; the 1x1 gain of biocam4000_15c is indexed as 3x3; target_pixel_size is divided by 100 (C240_metres_never)."
  },
  {
   "property": "C241",
   "status": "proved",
   "theorems": [
    "C241_sections",
    "C241_flags",
    "C241_std",
    "C241_ekf",
    "C241_spp",
    "C241_mixed",
    "C241_covariance",
    "C241_shipped",
    "C241_payload_names",
    "C241_files",
    "C241_sidescan",
    "C241_off",
    "C241_spp_files",
    "C241_finished",
    "C241_posed",
    "C241_apart"
   ],
   "note": "The tracks are reduced to the lengths of their lists and whether their records got poses; a text or list in place of a mapping is an exception; float() of a text is an argument; plots and raw sensor files are left out."
  },
  {
   "property": "C242",
   "status": "partial",
   "theorems": [
    "C242_sections_needed",
    "C242_section_refuted",
    "C242_std_refuted",
    "C242_matrix_refuted",
    "C242_no_usbl_refuted",
    "C242_payload_lost_refuted",
    "C242_payload_name_refuted",
    "C242_spp_refuted",
    "C242_relative_refuted",
    "C242_same_name_refuted",
    "C242_single_refuted",
    "C242_flag_refuted"
   ],
   "note": "False: witnesses for all parts. Without usbl_filter or plot_output a variable is never assigned (C242_sections_needed)."
  },
  {
   "property": "C243",
   "status": "proved",
   "theorems": [
    "C243_frame",
    "C243_sources",
    "C243_others",
    "C243_written",
    "C243_missing",
    "C243_completed",
    "C243_no_section",
    "C243_again",
    "C243_finishes",
    "C243_size"
   ],
   "note": "Pillow's resampling, the order of os.listdir and the images are arguments; folders are relative to the processed folder."
  },
  {
   "property": "C244",
   "status": "partial",
   "theorems": [
    "C244_completed_refuted",
    "C244_format_refuted",
    "C244_extension_refuted",
    "C244_twice_refuted",
    "C244_own_row_refuted",
    "C244_quits_late_refuted",
    "C244_same_output_refuted",
    "C244_method_refuted"
   ],
   "note": "False: witnesses for all parts."
  },
  {
   "property": "C245",
   "status": "proved",
   "theorems": [
    "C245_number",
    "C245_six_decimals",
    "C245_mono",
    "C245_stereo",
    "C245_chain",
    "C245_refused"
   ],
   "note": "The reader is the part of OpenCV's FileStorage these files need (indented key: value lines, !!opencv-matrix); decimals are read exactly, not rounded to doubles."
  },
  {
   "property": "C246",
   "status": "partial",
   "theorems": [
    "C246_small_refuted",
    "C246_rational_refuted",
    "C246_to_str_refuted",
    "C246_stereo_to_str_refuted"
   ],
   "note": "False: entries below 5e-7 become 0 (a whole fundamental matrix can), eight coefficients are written with cols: 5, to_str takes the first column of a row, and StereoCamera.to_str puts two keys on one line."
  },
  {
   "property": "C247",
   "status": "proved",
   "theorems": [
    "C247_finishes",
    "C247_subtraction",
    "C247_propagation",
    "C247_refused"
   ],
   "note": "The filter is an argument with the contract proved in C18; times read back from the file may differ from those of the images."
  },
  {
   "property": "C248",
   "status": "partial",
   "theorems": [
    "C248_two_cameras_refuted",
    "C248_one_image_refuted",
    "C248_dropped_row_refuted",
    "C248_other_covariance_refuted",
    "C248_unknown_end_refuted",
    "C248_at_dvl_refuted",
    "C248_columns_lost_refuted",
    "C248_end_refuted"
   ],
   "note": "Refuted by witnesses: two cameras, one image, a dropped row, a covariance row of another image, an unknown last identifier, poses at the origin in the file named at_dvl, lost columns, a last time read early by any amount."
  },
  {
   "property": "C249",
   "status": "proved",
   "theorems": [
    "C249_ros_close",
    "C249_name_close",
    "C249_offset_close",
    "C249_ros_order",
    "C249_ros_distinct",
    "C249_name_distinct",
    "C249_offset_distinct",
    "C249_starts_before",
    "C249_koyo",
    "C249_koyo_whole",
    "C249_same_instant",
    "C249_same_instant_ms"
   ],
   "note": "Flocq's binary64 with rounding to nearest even; decimal literals are the nearest floats. utc_stamp takes CPython's int / int division as correctly rounded."
  },
  {
   "property": "C250",
   "status": "partial",
   "theorems": [
    "C250_ros_distinct_refuted",
    "C250_koyo_refuted"
   ],
   "note": "Refuted: two ROS stamps 100 ns apart get one time (C250_ros_distinct_refuted); \"1.001\" ms is read as 1000 us because int() truncates 1000.9999999999999 (C250_koyo_refuted). What holds: C249."
  },
  {
   "property": "C251",
   "status": "proved",
   "theorems": [
    "C251_no_zero_division",
    "C251_exact_at_start",
    "C251_constant",
    "C251_monotone",
    "C251_close",
    "C251_close_at_end",
    "C251_yaw",
    "C251_dead_reckoning",
    "C251_every_fix",
    "C251_layer_outside",
    "C251_layer"
   ],
   "note": "Flocq's binary64. body_to_inertial in apply_offset, whose result is wrapped, is not part of this model (C05 and C179 model it over R)."
  },
  {
   "property": "C252",
   "status": "partial",
   "theorems": [
    "C252_layer_refuted",
    "C252_end_refuted",
    "C252_yaw_refuted"
   ],
   "note": "Refuted: with min_z 1, max_z 15 and 5 layers the float just below 15 gets layer 5 and IndexError is raised (C252_layer_refuted; C211 is the statement in exact arithmetic); interpolating from (50, -7.6) to (64, 2.4) at 64 gives more than 2.4 (C252_end_refuted); a heading of -1e-18 becomes 360 (C252_yaw_refuted). What holds: C251."
  },
  {
   "property": "C253",
   "status": "proved",
   "theorems": [
    "C253_line",
    "C253_file",
    "C253_lost",
    "C253_others",
    "C253_short",
    "C253_only",
    "C253_std",
    "C253_acfr",
    "C253_negative"
   ],
   "note": "int(), float(), date_time_to_epoch and the geodesic conversions are arguments. The ship's part of a record is constant in the code and left out."
  },
  {
   "property": "C254",
   "status": "partial",
   "theorems": [
    "C254_blank_refuted",
    "C254_second_refuted",
    "C254_std_refuted",
    "C254_south_refuted"
   ],
   "note": "Refuted: a blank last line raises IndexError and the file gives nothing (C254_blank_refuted), so does 09:00:05.5 through int() (C254_second_refuted); the standard deviations in degrees are negative (C254_std_refuted, in general C253_negative); 26-30.000 S is read as 25.5 degrees south (C254_south_refuted, see C130). What holds: C253."
  },
  {
   "property": "C255",
   "status": "proved",
   "theorems": [
    "C255_pixel",
    "C255_target",
    "C255_jobs",
    "C255_figures"
   ],
   "note": "Real arithmetic: the rounding to float32 and NaN are not modelled. The curve fit is an argument (see C50, C143 and C150)."
  },
  {
   "property": "C256",
   "status": "partial",
   "theorems": [
    "C256_bright_refuted",
    "C256_small_refuted",
    "C256_one_cpu_refuted",
    "C256_figures_refuted",
    "C256_width_refuted"
   ],
   "note": "Refuted: two images of value 1 are counted as black and come out as 1, not 0.3 (C256_bright_refuted); images of 9 by 11 pixels give range() a step of 0 (C256_small_refuted); 100 by 1 pixels come out 100 by 100 (C256_width_refuted); one processor gives n_jobs = 0, which joblib refuses (C256_one_cpu_refuted); the last row of an image of 8 by 2 has no figure (C256_figures_refuted). What holds: C255."
  },
  {
   "property": "C257",
   "status": "proved",
   "theorems": [
    "C257_row",
    "C257_file",
    "C257_stops",
    "C257_nothing",
    "C257_columns",
    "C257_centre"
   ],
   "note": "Numbers are rationals: a float formats as its exact value does; -0.0 is left out. metres_to_latlon, body_to_inertial and str() of a float are arguments."
  },
  {
   "property": "C258",
   "status": "partial",
   "theorems": [
    "C258_longitude_refuted",
    "C258_missing_refuted",
    "C258_second_refuted",
    "C258_rest_refuted",
    "C258_dvl_refuted"
   ],
   "note": "Refuted: a state with a longitude and no latitude stands at 0, 0 (C258_longitude_refuted); with a latitude and no longitude it ends the file (C258_missing_refuted), as any missing value does, the following states being lost (C258_rest_refuted); two states of one second may have equal rows (C258_second_refuted); the particle filter's states at the DVL get the pair as longitude and no latitude, and 23 cells for 22 names (C258_dvl_refuted). What holds: C257."
  },
  {
   "property": "C259",
   "status": "proved",
   "theorems": [
    "C259_compass",
    "C259_depth",
    "C259_fix",
    "C259_images",
    "C259_velocity",
    "C259_order",
    "C259_only"
   ],
   "note": "Numbers are reals (rounding of sqrt and atan2 is left out) and str(float(x)) is any function giving one word; names hold no line break."
  },
  {
   "property": "C260",
   "status": "partial",
   "theorems": [
    "C260_below_refuted",
    "C260_bearing_refuted",
    "C260_unknown_refuted",
    "C260_twice_refuted",
    "C260_missing_refuted",
    "C260_blank_refuted",
    "C260_order_refuted"
   ],
   "note": "Refuted: a target straight below gets the horizontal range -1 (C260_below_refuted); the bearing is taken from the mission's origin, not the ship (C260_bearing_refuted); an unknown slant range is written None (C260_unknown_refuted); a single camera's image is written twice (C260_twice_refuted) and a missing second image as a line without time and name (C260_missing_refuted); a blank in a name splits it (C260_blank_refuted); depths have the time of their own clock, so lines need not be in order (C260_order_refuted). What holds: C259."
  },
  {
   "property": "C261",
   "status": "proved",
   "theorems": [
    "C261_times",
    "C261_parsed",
    "C261_lasers",
    "C261_pairs",
    "C261_poses"
   ],
   "note": "Times are exact rationals; int() takes digits only; glob is its documented matching of * and ** (no name starting with a dot); pairing is that of the first dive of a run (StereoModel)."
  },
  {
   "property": "C262",
   "status": "partial",
   "theorems": [
    "C262_first_refuted",
    "C262_position_refuted",
    "C262_format_refuted",
    "C262_folder_refuted",
    "C262_text_refuted",
    "C262_dots_refuted",
    "C262_light_refuted",
    "C262_clock_refuted",
    "C262_short",
    "C262_name_refuted",
    "C262_parts_refuted"
   ],
   "note": "Refuted: the first camera's laser images are taken for images of pairs (C262_first_refuted), and then the second camera's are put at the first's position (C262_position_refuted); with biocam4000_15c the position is that of a third camera (C262_format_refuted); .jpg or .txt in a folder's name (C262_folder_refuted, C262_text_refuted); ._ counts for one camera only (C262_dots_refuted); calibration images are paired with strobe images (C262_light_refuted); times before 2000 are 0 (C262_clock_refuted); short names never work (C262_short, C262_name_refuted), nor six parts (C262_parts_refuted). What holds: C261."
  },
  {
   "property": "C263",
   "status": "proved",
   "theorems": [
    "C263_sample",
    "C263_space",
    "C263_loaded",
    "C263_statistics",
    "C263_range",
    "C263_used",
    "C263_uniform",
    "C263_order",
    "C263_total"
   ],
   "note": "Exact rationals for float32 and float64; the square root is a parameter; cv2.resize is linear interpolation between centres (its third argument is the output, not the method, so that INTER_CUBIC is not used). Names of output files, the progress bars and image_raw_mean.np are not modelled."
  },
  {
   "property": "C264",
   "status": "partial",
   "theorems": [
    "C264_white_refuted",
    "C264_own_mean_refuted",
    "C264_grey_refuted",
    "C264_alpha_refuted",
    "C264_sizes_refuted",
    "C264_alike_refuted"
   ],
   "note": "Refuted: a value of 1 becomes 256 and as a byte 0 (C264_white_refuted); mean and deviation are transposed (C264_own_mean_refuted); grey, four-channel and mixed folders raise (C264_grey_refuted, C264_alpha_refuted, C264_sizes_refuted); equal images give NaN (C264_alike_refuted). What holds: C263."
  },
  {
   "property": "C265",
   "status": "proved",
   "theorems": [
    "C265_inliers",
    "C265_length",
    "C265_threshold",
    "C265_written",
    "C265_spread",
    "C265_raises",
    "C265_detections",
    "C265_axis",
    "C265_ply"
   ],
   "note": "Exact reals; least_squares is taken as its result, for the bounds on n as an exact minimum of its cost within its bounds (an example of which is proved). The first coefficient is not 0. repr of floats in the yaml text, plots and messages are not modelled; the numbers of a PLY file are rationals."
  },
  {
   "property": "C266",
   "status": "partial",
   "theorems": [
    "C266_threshold_refuted",
    "C266_mean_refuted",
    "C266_inliers_refuted",
    "C266_three_refuted",
    "C266_size_refuted",
    "C266_ply_refuted",
    "C266_precision_refuted"
   ],
   "note": "Refuted: from_coeffs divides the normal twice, so that the threshold is stretched by up to the root of 3, shown at a proved minimum (C266_threshold_refuted); C266_mean_refuted; C266_inliers_refuted, C266_three_refuted (no or few inliers raise); max_cloud_size only limits a saved file (C266_size_refuted); header lines are indented (C266_ply_refuted); five decimals (C266_precision_refuted). What holds: C265."
  },
  {
   "property": "C267",
   "status": "proved",
   "theorems": [
    "C267_euler",
    "C267_names",
    "C267_tuples",
    "C267_angles",
    "C267_rotation",
    "C267_exact",
    "C267_same",
    "C267_quaternion",
    "C267_back",
    "C267_every",
    "C267_sign",
    "C267_product",
    "C267_algebra",
    "C267_conjugate",
    "C267_random",
    "C267_about",
    "C267_slerp",
    "C267_ends"
   ],
   "note": "Exact reals, without rounding; names are ASCII. The rotations are 3 by 3 matrices; the fourth row and column of the code's arrays are those of the identity. slerp of quaternions within the limit of parallel returns the first one; the constant speed is proved for spin 0 and the cosine of the ends within that limit of -1 and 1."
  },
  {
   "property": "C268",
   "status": "partial",
   "theorems": [
    "C268_spin_refuted",
    "C268_jump_refuted",
    "C268_case_refuted",
    "C268_middle_refuted"
   ],
   "note": "Refuted: an odd spin takes the sine of the shorter angle and the squared norm reaches 3 (C268_spin_refuted); just before the end slerp is near the opposite quaternion, at the end it is the given one (C268_jump_refuted); euler_from_matrix and quaternion_from_euler lower the name, euler_matrix does not (C268_case_refuted); a middle angle between 0 and pi of a z,y,z sequence comes back negative (C268_middle_refuted). What holds: C267."
  },
  {
   "property": "C269",
   "status": "proved",
   "theorems": [
    "C269_rotation",
    "C269_line",
    "C269_axis",
    "C269_recovered",
    "C269_reflection",
    "C269_mirror",
    "C269_scale",
    "C269_rescaled",
    "C269_projection",
    "C269_nearest",
    "C269_perspective",
    "C269_pseudo",
    "C269_concatenate",
    "C269_translation",
    "C269_same",
    "C269_tolerance",
    "C269_minus"
   ],
   "note": "Exact reals. The direction and point of rotation_from_matrix are taken as kept ones; numpy.linalg.eig, which finds them, is external. Matrices have the last row of the identity but for the perspective ones and is_same_transform. The inverse functions for reflection, scale and projection, and clip, shear, compose, decompose, superimposition, orthogonalization and Arcball are not modelled."
  },
  {
   "property": "C270",
   "status": "partial",
   "theorems": [
    "C270_far_refuted",
    "C270_symmetric_refuted",
    "C270_chain_refuted"
   ],
   "note": "Refuted: numpy.allclose has a relative tolerance of the second argument: translations 10 m apart at 1000 km are the same (C270_far_refuted), it is not symmetric (C270_symmetric_refuted) and not transitive (C270_chain_refuted). What holds: C269."
  },
  {
   "property": "C271",
   "status": "proved",
   "theorems": [
    "C271_removed",
    "C271_order",
    "C271_canonical",
    "C271_lines",
    "C271_some",
    "C271_unique"
   ],
   "note": "Folder trees are finite (no link leads back up), names are texts of code points lowered one by one; access rights are not modelled. The names of a folder are read before its first entry is removed, as os.listdir does. Links lead to what is no link itself."
  },
  {
   "property": "C272",
   "status": "partial",
   "theorems": [
    "C272_link_refuted",
    "C272_hidden_refuted",
    "C272_deep_refuted",
    "C272_case_refuted"
   ],
   "note": "Refuted: this_depth counts the folders passed side by side, so later ones are not opened (C272_hidden_refuted); last folders do not count, so a chain of them is opened without end (C272_deep_refuted); names equal but for case keep the order of iterdir (C272_case_refuted); is_dir follows links, so the contents of a linked folder are removed, after which rmdir of the link raises (C272_link_refuted). What holds: C271."
  },
  {
   "property": "C273",
   "status": "proved",
   "theorems": [
    "C273_majority",
    "C273_median",
    "C273_order",
    "C273_mean",
    "C273_bin",
    "C273_train"
   ],
   "note": "Real arithmetic (no rounding to float32, no NaN); cv2.resize and random.sample are arguments; smoothing ransac_mean is left out (C73)."
  },
  {
   "property": "C274",
   "status": "partial",
   "theorems": [
    "C274_one_channel_refuted",
    "C274_colour_refuted",
    "C274_missing_refuted",
    "C274_channels_refuted"
   ],
   "note": "Refuted: with mean_trimmed one channel raises (four indices for three dimensions) and three channels give NaN everywhere (the number of rows, one, is trimmed); an entry that is None quits; colour images of a one-channel camera raise."
  },
  {
   "property": "C275",
   "status": "proved",
   "theorems": [
    "C275_parse",
    "C275_load",
    "C275_missing",
    "C275_round_trip",
    "C275_loader",
    "C275_no_depth",
    "C275_default"
   ],
   "note": "Over the reals; decoding of a message (cv_bridge, cv2.imdecode) and bag.read_messages are outside."
  },
  {
   "property": "C276",
   "status": "partial",
   "theorems": [
    "C276_set_up_refuted",
    "C276_zone_refuted",
    "C276_close_refuted",
    "C276_late_refuted",
    "C276_unopened_refuted",
    "C276_acfr_refuted"
   ],
   "note": "False: the mission's image entry has no attribute timeoffset, so setting up a camera with extension 'bag' raises; with it, the offset lacks the hours of the zone that auv_nav subtracts; of two images within 5 ms the first is given for both; an image recorded later than half a second after its stamp is not found; a bag that does not open raises; format acfr lists no image. What holds is C275."
  },
  {
   "property": "C277",
   "status": "proved",
   "theorems": [
    "C277_detected",
    "C277_project",
    "C277_round_trip",
    "C277_undistort",
    "C277_images",
    "C277_made",
    "C277_on_plane",
    "C277_altitudes",
    "C277_swath"
   ],
   "note": "Over the reals; the SVD by its contract as in C213; the lens of undistort_point without distortion."
  },
  {
   "property": "C278",
   "status": "partial",
   "theorems": [
    "C278_on_row_refuted",
    "C278_last_row_refuted",
    "C278_behind_refuted",
    "C278_plane_refuted",
    "C278_step_refuted",
    "C278_rectify_refuted"
   ],
   "note": "Refuted: a line exactly on a row is drawn in black; one within the last row raises IndexError; a point behind the camera gets a pixel; of the plane only d is used; the step is stretched if it does not divide the range; rectification multiplies pixels, not directions, by R, so a point seen by the rectified camera is given none."
  },
  {
   "property": "C279",
   "status": "proved",
   "theorems": [
    "C279_logs",
    "C279_files",
    "C279_others",
    "C279_kept",
    "C279_refused"
   ],
   "note": "A csv is its header and rows of numbers; lines come without their end; distinct names are distinct files."
  },
  {
   "property": "C280",
   "status": "partial",
   "theorems": [
    "C280_group_refuted",
    "C280_folder_refuted",
    "C280_empty_refuted",
    "C280_cut_refuted"
   ],
   "note": "Refuted: only the first file after each -a is corrected, folders with .csv in their names are renamed in the output path, and an empty table or a truncated poll line stops the run."
  },
  {
   "property": "C281",
   "status": "proved",
   "theorems": [
    "C281_stereo",
    "C281_close",
    "C281_looks",
    "C281_vehicle",
    "C281_vehicle_tilt"
   ],
   "note": "Real trigonometry; uses AcfrModel's entries (degrees) and FramesModel's rotation."
  },
  {
   "property": "C282",
   "status": "partial",
   "theorems": [
    "C282_stereo_refuted",
    "C282_vehicle_refuted"
   ],
   "note": "Refuted: roll and pitch are swapped in order for stereo frames turned about both image axes, and the vehicle parser reads the file's roll as pitch."
  },
  {
   "property": "C283",
   "status": "proved",
   "theorems": [
    "C283_seaxerocks",
    "C283_acfr",
    "C283_payloads",
    "C283_version_1",
    "C283_mounted"
   ],
   "note": "YAML as trees (MissionModel); the topic, which cameras of old missions do not have at all, is not compared."
  },
  {
   "property": "C284",
   "status": "partial",
   "theorems": [
    "C284_format_refuted",
    "C284_path_refuted",
    "C284_origin_refuted",
    "C284_payload_refuted",
    "C284_version_refuted"
   ],
   "note": "Refuted by witnesses for other formats, paths without a slash, origins, unknown payloads and quoted versions."
  },
  {
   "property": "C285",
   "status": "proved",
   "theorems": [
    "C285_rows",
    "C285_all",
    "C285_duration",
    "C285_raises",
    "C285_rate",
    "C285_exits",
    "C285_points"
   ],
   "note": "Times are exact and not negative; the sample values, local times and plotly figures are not modelled."
  },
  {
   "property": "C286",
   "status": "partial",
   "theorems": [
    "C286_fast_refuted",
    "C286_frame_refuted",
    "C286_origin_refuted",
    "C286_second_refuted",
    "C286_rate_refuted"
   ],
   "note": "False as stated: fast samples, a third frame, a file with only the origin, the second of a label and the sign of a rate."
  },
  {
   "property": "C287",
   "status": "proved",
   "theorems": [
    "C287_parts",
    "C287_shear",
    "C287_shear_volume",
    "C287_recomposed",
    "C287_refused",
    "C287_ranges",
    "C287_composed"
   ],
   "note": "Over the reals, with numpy's det and inv exact; the branch cos(angle) == 0 is exact too, where binary64 hardly ever takes it."
  },
  {
   "property": "C288",
   "status": "partial",
   "theorems": [
    "C288_mirror_refuted",
    "C288_pitch_refuted",
    "C288_flat_refuted",
    "C288_tiny_refuted",
    "C288_shear_refuted"
   ],
   "note": "False as stated: one mirrored axis, a pitch over a right angle, a zero scale, a tiny last row and nearly orthogonal shear vectors."
  },
  {
   "property": "C289",
   "status": "proved",
   "theorems": [
    "C289_times",
    "C289_unlisted",
    "C289_no_table",
    "C289_other_cells",
    "C289_trailing"
   ],
   "note": "The lines are lists of fields (no quotes or blank lines) and the header names distinct; pandas is taken to hand out string cells, with its NA words becoming nan."
  },
  {
   "property": "C290",
   "status": "partial",
   "theorems": [
    "C290_unpadded_refuted",
    "C290_last_name_refuted",
    "C290_twice_refuted",
    "C290_short_index_refuted",
    "C290_missing_refuted"
   ],
   "note": "False as stated: unpadded times, rows ending with a comma, repeated numbers, a two-letter number column and an empty date cell."
  },
  {
   "property": "C291",
   "status": "proved",
   "theorems": [
    "C291_listed",
    "C291_stops",
    "C291_lower"
   ],
   "note": "Means are exact; reading the brightness CSV back is taken to give what was written."
  },
  {
   "property": "C292",
   "status": "partial",
   "theorems": [
    "C292_transparent_refuted",
    "C292_case_refuted",
    "C292_gray_refuted",
    "C292_comma_refuted"
   ],
   "note": "False as stated: opacity counts as a channel, .JPG is not looked at, a picture without channels stops the script, a comma brings quotes."
  },
  {
   "property": "C293",
   "status": "proved",
   "theorems": [
    "C293_codes",
    "C293_folder",
    "C293_others"
   ],
   "note": "cv2.imread and cvtColor are one partial function; each image is read and written in one step, which loses nothing as no image reads what another writes."
  },
  {
   "property": "C294",
   "status": "partial",
   "theorems": [
    "C294_mono_refuted",
    "C294_case_refuted",
    "C294_same_folder_refuted",
    "C294_hidden_refuted"
   ],
   "note": "False as stated: MONO writes nothing, mixed case is refused, PNG input in the output folder is replaced, .png and .png.png share an output."
  },
  {
   "property": "C295",
   "status": "proved",
   "theorems": [
    "C295_defined",
    "C295_brightness",
    "C295_contrast",
    "C295_plain",
    "C295_mirror"
   ],
   "note": "Pixels and variances are exact rationals; cv2.Laplacian is its documented kernel with the border reflected."
  },
  {
   "property": "C296",
   "status": "partial",
   "theorems": [
    "C296_outside_refuted",
    "C296_contrast_refuted",
    "C296_slope_refuted"
   ],
   "note": "False as stated: a corner outside the image, low contrast, a slope (by the reflected border)."
  },
  {
   "property": "C297",
   "status": "proved",
   "theorems": [
    "C297_samples",
    "C297_integers",
    "C297_refused"
   ],
   "note": "How pandas reads a single cell is an argument; empty cells and columns of True and False are left out."
  },
  {
   "property": "C298",
   "status": "partial",
   "theorems": [
    "C298_integers_refuted",
    "C298_columns_refuted",
    "C298_epoch_refuted",
    "C298_offset_refuted"
   ],
   "note": "False as stated: numeric rows become floats, the columns setting is unused, epoch_timestamp is replaced and dropped, the offset is only in the sample's time."
  },
  {
   "property": "C299",
   "status": "proved",
   "theorems": [
    "C299_parts",
    "C299_complete",
    "C299_cycles"
   ],
   "note": ""
  },
  {
   "property": "C300",
   "status": "partial",
   "theorems": [
    "C300_cycle_refuted",
    "C300_turn_refuted"
   ],
   "note": "Refuted: an altitude given before the velocity of its cycle is paired with the velocity of the cycle before, and an attitude given before the heading is not turned by the heading offset. C299 gives the orders that work."
  },
  {
   "property": "C301",
   "status": "proved",
   "theorems": [
    "C301_pictures",
    "C301_all",
    "C301_bags",
    "C301_raw",
    "C301_topic"
   ],
   "note": ""
  },
  {
   "property": "C302",
   "status": "partial",
   "theorems": [
    "C302_sizes_refuted",
    "C302_raw_refuted",
    "C302_extension_refuted",
    "C302_empty_refuted"
   ],
   "note": "Refuted: only the first image is looked at, raw images are always taken as 1024 by 1280, tiff, TIF and jpeg images end the program, and bags without images of the camera give an empty list on which the corrector fails. C301 says what holds."
  },
  {
   "property": "C303",
   "status": "proved",
   "theorems": [
    "C303_drawn",
    "C303_kept",
    "C303_pixel"
   ],
   "note": ""
  },
  {
   "property": "C304",
   "status": "partial",
   "theorems": [
    "C304_stale_refuted",
    "C304_bits_refuted",
    "C304_same_refuted"
   ],
   "note": "Refuted: pictures that are there are not drawn again even if the laser is detected again, 16 bit values lose their upper byte, and two images of one name in one folder share a picture. C303 gives the conditions."
  },
  {
   "property": "C305",
   "status": "proved",
   "theorems": [
    "C305_settings",
    "C305_loads",
    "C305_files",
    "C305_shipped"
   ],
   "note": ""
  },
  {
   "property": "C306",
   "status": "partial",
   "theorems": [
    "C306_points_refuted",
    "C306_detection_refuted",
    "C306_empty_refuted"
   ],
   "note": "Refuted: the shipped max_points_per_bin is not read because the calibrator looks for max_bin_elements; without a detection section the program fails after writing the first file; an empty section raises. C305 says what holds."
  },
  {
   "property": "C307",
   "status": "proved",
   "theorems": [
    "C307_images",
    "C307_list",
    "C307_bag",
    "C307_bag_list"
   ],
   "note": "Images are written in the order of the list; writing succeeds (C61 has the attempts)."
  },
  {
   "property": "C308",
   "status": "partial",
   "theorems": [
    "C308_folders_refuted",
    "C308_bags_refuted"
   ],
   "note": "Refuted: two images with one stem in two folders leave one file, with the pixels of the second; for bags auv_nav's rows are called after the time alone while the corrected images are called after camera and time, so filelist.csv is empty."
  },
  {
   "property": "C309",
   "status": "proved",
   "theorems": [
    "C309_pairs",
    "C309_longer",
    "C309_again"
   ],
   "note": "The search for a board, the sharpness test and the parameters of a view are arguments; that they raise is left out."
  },
  {
   "property": "C310",
   "status": "partial",
   "theorems": [
    "C310_again_refuted",
    "C310_board_refuted",
    "C310_unread_refuted",
    "C310_shift_refuted"
   ],
   "note": "All four refuted: db is not emptied, so the second run raises; only the left board is kept, and the right corners may be of another one; an unreadable image has no shape, an AttributeError; images are paired by place."
  },
  {
   "property": "C311",
   "status": "proved",
   "theorems": [
    "C311_defined",
    "C311_edges",
    "C311_axes"
   ],
   "note": "Over the reals."
  },
  {
   "property": "C312",
   "status": "partial",
   "theorems": [
    "C312_angles_refuted",
    "C312_first_refuted"
   ],
   "note": "Refuted: angles of 60, 60 and 135 degrees raise ValueError; for angles of 90, 60 and 90 degrees the first edge leaves the x axis (the third stays on z)."
  },
  {
   "property": "C313",
   "status": "proved",
   "theorems": [
    "C313_taken",
    "C313_box",
    "C313_box_corners",
    "C313_pyramid",
    "C313_planes"
   ],
   "note": "Exact rationals instead of doubles."
  },
  {
   "property": "C314",
   "status": "partial",
   "theorems": [
    "C314_refuted"
   ],
   "note": "Refuted: near = 1e-16 raises 'invalid frustrum: near <= 0', because near is compared with four times the machine epsilon. What holds is C313_taken."
  },
  {
   "property": "C315",
   "status": "proved",
   "theorems": [
    "C315_sphere",
    "C315_constrain",
    "C315_constrain_none",
    "C315_nearest",
    "C315_unit",
    "C315_runs",
    "C315_back",
    "C315_axis",
    "C315_pick",
    "C315_drag",
    "C315_settings",
    "C315_next"
   ],
   "note": "Real numbers; an exception and a vector of NaN are both a failure; the start is a unit quaternion."
  },
  {
   "property": "C316",
   "status": "partial",
   "theorems": [
    "C316_down_refuted",
    "C316_clear_refuted"
   ],
   "note": "Refuted: the axis (0, 0, -1) and the middle of the window give NaN, where (0, 0, 1) does not (C316_down_refuted); after setaxes() the next press computes with no axis, because the tuple of arguments is never None (C316_clear_refuted). What holds is C315_runs."
  },
  {
   "property": "C317",
   "status": "proved",
   "theorems": [
    "C317_bearing",
    "C317_twice",
    "C317_raises"
   ],
   "note": "Real numbers; metres_to_latlon is an argument."
  },
  {
   "property": "C318",
   "status": "partial",
   "theorems": [
    "C318_std_refuted",
    "C318_again_refuted",
    "C318_half_refuted"
   ],
   "note": "Refuted: the uncertainties stay (C318_std_refuted), a second call turns again (C318_again_refuted), and without a reference the position is already turned when it raises (C318_half_refuted)."
  }
 ]
}