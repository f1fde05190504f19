{
 "claims": [
  {
   "property": "C01",
   "status": "proved",
   "theorems": [
    "C01_history_independence",
    "C01_near_earth_record_too"
   ],
   "note": ""
  },
  {
   "property": "C02",
   "status": "proved",
   "theorems": [
    "C02_near_earth",
    "C02_deep_space",
    "C02_elements_preserved"
   ],
   "note": ""
  },
  {
   "property": "C03",
   "status": "proved",
   "theorems": [
    "C03_sgp4_flag",
    "C03_sgp4init_flag",
    "C03_flag_faithful"
   ],
   "note": ""
  },
  {
   "property": "C04",
   "status": "proved",
   "theorems": [
    "C04_error_conditions",
    "C04_each_condition"
   ],
   "note": ""
  },
  {
   "property": "C05",
   "status": "proved",
   "theorems": [
    "C05_reinit",
    "C05_unowned_fields",
    "C05_idempotent"
   ],
   "note": ""
  },
  {
   "property": "C06",
   "status": "proved",
   "theorems": [
    "C06_selection",
    "C06_selection_exact"
   ],
   "note": ""
  },
  {
   "property": "C07",
   "status": "proved",
   "theorems": [
    "C07_ready"
   ],
   "note": ""
  },
  {
   "property": "C08",
   "status": "proved",
   "theorems": [
    "C08_is_sgp4",
    "C08_repeatable",
    "C08_elapsed_exact",
    "C08_tle_elapsed_exact",
    "C08_tle_elapsed_binary64"
   ],
   "note": ""
  },
  {
   "property": "C09",
   "status": "proved",
   "theorems": [
    "C09_subsecond_ignored"
   ],
   "note": ""
  },
  {
   "property": "C10",
   "status": "proved",
   "theorems": [
    "C10_never_below_surface",
    "C10_decay_reported"
   ],
   "note": ""
  },
  {
   "property": "C11",
   "status": "proved",
   "theorems": [
    "C11_state_formula",
    "C11_one_frame",
    "C11_plane"
   ],
   "note": ""
  },
  {
   "property": "C12",
   "status": "proved",
   "theorems": [
    "C12_iteration",
    "C12_iteration_binary64",
    "C12_unique_solution",
    "C12_residual",
    "C12_converges",
    "C12_converges_eccentric"
   ],
   "note": ""
  },
  {
   "property": "C13",
   "status": "proved",
   "theorems": [
    "C13_drag_at_epoch",
    "C13_drag_at_epoch_propagated"
   ],
   "note": ""
  },
  {
   "property": "C14",
   "status": "proved",
   "theorems": [
    "C14_init_third_law",
    "C14_recovered_mean_motion",
    "C14_parsed_third_law",
    "C14_propagated_third_law"
   ],
   "note": ""
  },
  {
   "property": "C15",
   "status": "proved",
   "theorems": [
    "C15_gstime",
    "C15_unique",
    "C15_datetime",
    "C15_gsto",
    "C15_binary64_range",
    "C15_binary64_finite"
   ],
   "note": ""
  },
  {
   "property": "C16",
   "status": "proved",
   "theorems": [
    "C16_restartable_exact",
    "C16_restartable_binary64"
   ],
   "note": ""
  },
  {
   "property": "C17",
   "status": "proved",
   "theorems": [
    "C17_steps_exact",
    "C17_terminates_exact",
    "C17_terminates_binary64",
    "C17_hangs_binary64"
   ],
   "note": ""
  },
  {
   "property": "C18",
   "status": "proved",
   "theorems": [
    "C18_resonance_discarded"
   ],
   "note": ""
  },
  {
   "property": "C19",
   "status": "proved",
   "theorems": [
    "C19_angles_discarded",
    "C19_eccentricity_discarded"
   ],
   "note": ""
  },
  {
   "property": "C20",
   "status": "proved",
   "theorems": [
    "C20_identity",
    "C20_elements_stored"
   ],
   "note": ""
  },
  {
   "property": "C21",
   "status": "proved",
   "theorems": [
    "C21_init_mode",
    "C21_direct_elements",
    "C21_direct",
    "C21_lyddane"
   ],
   "note": ""
  },
  {
   "property": "C22",
   "status": "proved",
   "theorems": [
    "C22_day_number_unique",
    "C22_jday_exact",
    "C22_jday_drift",
    "C22_midnight_binary64",
    "C22_datetime_binary64"
   ],
   "note": ""
  },
  {
   "property": "C23",
   "status": "proved",
   "theorems": [
    "C23_date_exact",
    "C23_date_binary64",
    "C23_common_century_years",
    "C23_no_underflow"
   ],
   "note": ""
  },
  {
   "property": "C24",
   "status": "proved",
   "theorems": [
    "C24_epoch_exact",
    "C24_epoch_of_record_exact",
    "C24_year",
    "C24_epoch_binary64"
   ],
   "note": ""
  },
  {
   "property": "C25",
   "status": "proved",
   "theorems": [
    "C25_unused_columns_are_irrelevant",
    "C25_fields_do_not_interfere",
    "C25_byte_lengths"
   ],
   "note": ""
  },
  {
   "property": "C26",
   "status": "proved",
   "theorems": [
    "C26_checksum_and_satnum_never_read",
    "C26_spoiled_sets_are_accepted"
   ],
   "note": ""
  },
  {
   "property": "C27",
   "status": "proved",
   "theorems": [
    "C27_long_ascii_lines_never_panic",
    "C27_truncated_lines_panic",
    "C27_short_lines",
    "C27_parse",
    "C27_parse_multiple",
    "C27_parse_multiple_only"
   ],
   "note": ""
  },
  {
   "property": "C28",
   "status": "proved",
   "theorems": [
    "C28_exact_values",
    "C28_nearest_doubles"
   ],
   "note": ""
  },
  {
   "property": "C29",
   "status": "proved",
   "theorems": [
    "C29_bstar",
    "C29_nddot",
    "C29_bstar_f64"
   ],
   "note": ""
  },
  {
   "property": "C30",
   "status": "proved",
   "theorems": [
    "C30_negative_second_derivative_is_rejected",
    "C30_never_accepted"
   ],
   "note": ""
  },
  {
   "property": "C31",
   "status": "proved",
   "theorems": [
    "C31_first_faulty_field_is_reported",
    "C31_float_errors_never_occur"
   ],
   "note": ""
  },
  {
   "property": "C32",
   "status": "proved",
   "theorems": [
    "C32_only_content_lines_matter",
    "C32_blank_lines_can_be_inserted"
   ],
   "note": ""
  },
  {
   "property": "C33",
   "status": "proved",
   "theorems": [
    "C33_checks_come_first",
    "C33_texts",
    "C33_success_means_checked"
   ],
   "note": ""
  },
  {
   "property": "C34",
   "status": "proved",
   "theorems": [
    "C34_two_line_sets_have_no_name",
    "C34_three_line_sets",
    "C34_parse_multiple_trims",
    "C34_trim_meaning",
    "C34_marker_is_not_checked"
   ],
   "note": ""
  },
  {
   "property": "C35",
   "status": "proved",
   "theorems": [
    "C35_every_line_is_accounted_for"
   ],
   "note": ""
  },
  {
   "property": "C36",
   "status": "proved",
   "theorems": [
    "C36_catalogue",
    "C36_entries_are_independent",
    "C36_names_of_25_bytes_break"
   ],
   "note": ""
  },
  {
   "property": "C37",
   "status": "proved",
   "theorems": [
    "C37_single_set",
    "C37_only_the_last_can_be_unnamed",
    "C37_unnamed_catalogues_lose_records"
   ],
   "note": ""
  },
  {
   "property": "C38",
   "status": "proved",
   "theorems": [
    "C38_nan_in_nan_out",
    "C38_nan_texts_never_give_numbers",
    "C38_nan_accepted_and_propagated"
   ],
   "note": ""
  },
  {
   "property": "C39",
   "status": "proved",
   "theorems": [
    "C39_turn",
    "C39_inverse",
    "C39_isometry",
    "C39_group",
    "C39_faithful"
   ],
   "note": ""
  },
  {
   "property": "C40",
   "status": "proved",
   "theorems": [
    "C40_on_ellipsoid",
    "C40_vertical",
    "C40_surjective",
    "C40_everywhere",
    "C40_unique"
   ],
   "note": ""
  },
  {
   "property": "C41",
   "status": "proved",
   "theorems": [
    "C41_ranges",
    "C41_terminates",
    "C41_binary64_longitude",
    "C41_binary64_termination"
   ],
   "note": ""
  },
  {
   "property": "C42",
   "status": "proved",
   "theorems": [
    "C42_longitude",
    "C42_latitude_height_only_on_equator",
    "C42_error_size",
    "C42_every_position"
   ],
   "note": ""
  },
  {
   "property": "C43",
   "status": "proved",
   "theorems": [
    "C43_basis",
    "C43_directions",
    "C43_coordinates",
    "C43_isometry"
   ],
   "note": ""
  },
  {
   "property": "C44",
   "status": "proved",
   "theorems": [
    "C44_look_angles",
    "C44_unique"
   ],
   "note": ""
  },
  {
   "property": "C45",
   "status": "proved",
   "theorems": [
    "C45_guards",
    "C45_round_trip"
   ],
   "note": ""
  },
  {
   "property": "C46",
   "status": "proved",
   "theorems": [
    "C46_inverse",
    "C46_binary64"
   ],
   "note": ""
  },
  {
   "property": "C47",
   "status": "proved",
   "theorems": [
    "C47_formula",
    "C47_bounds",
    "C47_frame",
    "C47_blind_to_sign",
    "C47_binary64"
   ],
   "note": ""
  },
  {
   "property": "C48",
   "status": "proved",
   "theorems": [
    "C48_distance",
    "C48_metric",
    "C48_add_subtract",
    "C48_binary64"
   ],
   "note": ""
  },
  {
   "property": "C49",
   "status": "proved",
   "theorems": [
    "C49_secular_coefficients",
    "C49_near_earth_coefficients"
   ],
   "note": ""
  },
  {
   "property": "C50",
   "status": "proved",
   "theorems": [
    "C50_near_earth_state",
    "C50_deep_space_state",
    "C50_kepler_angle"
   ],
   "note": ""
  },
  {
   "property": "C51",
   "status": "proved",
   "theorems": [
    "C51_lagrange_equations",
    "C51_potential_is_orbit_average",
    "C51_epoch_phases"
   ],
   "note": ""
  },
  {
   "property": "C52",
   "status": "proved",
   "theorems": [
    "C52_inclination_functions",
    "C52_classes",
    "C52_one_day",
    "C52_half_day"
   ],
   "note": ""
  },
  {
   "property": "C53",
   "status": "proved",
   "theorems": [
    "C53_near_earth",
    "C53_deep_space",
    "C53_flow"
   ],
   "note": ""
  },
  {
   "property": "C54",
   "status": "proved",
   "theorems": [
    "C54_near_earth",
    "C54_deep_space",
    "C54_text"
   ],
   "note": ""
  },
  {
   "property": "C55",
   "status": "proved",
   "theorems": [
    "C55_gstime",
    "C55_gstime_datetime",
    "C55_gsto"
   ],
   "note": ""
  },
  {
   "property": "C56",
   "status": "proved",
   "theorems": [
    "C56_rotation",
    "C56_geodetic",
    "C56_look_angles"
   ],
   "note": ""
  },
  {
   "property": "C57",
   "status": "proved",
   "theorems": [
    "C57_near_earth_accuracy",
    "C57_rounded_elements",
    "C57_always_returns"
   ],
   "note": ""
  },
  {
   "property": "C58",
   "status": "proved",
   "theorems": [
    "C58_text_to_binary64_state"
   ],
   "note": ""
  },
  {
   "property": "C59",
   "status": "proved",
   "theorems": [
    "C59_inverse_accuracy",
    "C59_geodetic_coordinates"
   ],
   "note": ""
  },
  {
   "property": "C60",
   "status": "proved",
   "theorems": [
    "C60_drag_free_forever",
    "C60_drag_ends",
    "C60_deep_space_ends"
   ],
   "note": ""
  },
  {
   "property": "C61",
   "status": "proved",
   "theorems": [
    "C61_bearing",
    "C61_text_to_bearing"
   ],
   "note": ""
  },
  {
   "property": "C62",
   "status": "proved",
   "theorems": [
    "C62_deep_space_accuracy",
    "C62_rounded_elements",
    "C62_always_returns"
   ],
   "note": ""
  },
  {
   "property": "C63",
   "status": "proved",
   "theorems": [
    "C63_text_to_deep_state"
   ],
   "note": ""
  },
  {
   "property": "C64",
   "status": "proved",
   "theorems": [
    "C64_text_to_deep_bearing"
   ],
   "note": ""
  },
  {
   "property": "C65",
   "status": "proved",
   "theorems": [
    "C65_subpoint",
    "C65_text_to_subpoint",
    "C65_text_to_deep_subpoint"
   ],
   "note": ""
  },
  {
   "property": "C66",
   "status": "proved",
   "theorems": [
    "C66_range",
    "C66_doppler",
    "C66_observed",
    "C66_text_to_doppler",
    "C66_text_to_deep_doppler"
   ],
   "note": ""
  },
  {
   "property": "C67",
   "status": "proved",
   "theorems": [
    "C67_eccentric_accuracy",
    "C67_rounded_elements",
    "C67_text_to_state"
   ],
   "note": ""
  },
  {
   "property": "C68",
   "status": "proved",
   "theorems": [
    "C68_text_to_observation"
   ],
   "note": ""
  },
  {
   "property": "C69",
   "status": "proved",
   "theorems": [
    "C69_file",
    "C69_catalogue"
   ],
   "note": ""
  },
  {
   "property": "C70",
   "status": "proved",
   "theorems": [
    "C70_near_earth",
    "C70_deep_space",
    "C70_speed",
    "C70_text",
    "C70_drag_free_text"
   ],
   "note": ""
  },
  {
   "property": "C71",
   "status": "proved",
   "theorems": [
    "C71_decoding",
    "C71_states"
   ],
   "note": ""
  },
  {
   "property": "C72",
   "status": "proved",
   "theorems": [
    "C72_above_horizon",
    "C72_below_horizon",
    "C72_text_near",
    "C72_text_deep",
    "C72_text_eccentric",
    "C72_example"
   ],
   "note": ""
  },
  {
   "property": "C73",
   "status": "proved",
   "theorems": [
    "C73_casts",
    "C73_days",
    "C73_two_lines",
    "C73_catalogue",
    "C73_example"
   ],
   "note": ""
  },
  {
   "property": "C74",
   "status": "proved",
   "theorems": [
    "C74_zenith",
    "C74_text_near",
    "C74_text_deep",
    "C74_example"
   ],
   "note": ""
  }
 ]
}