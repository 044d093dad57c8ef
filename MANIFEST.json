{
 "claims": [
  {
   "property": "C01",
   "status": "proved",
   "theorems": [
    "C01_status_setters_isolated",
    "C01_control_setters_isolated"
   ],
   "note": ""
  },
  {
   "property": "C02",
   "status": "proved",
   "theorems": [
    "C02_status_decoding",
    "C02_control_decoding",
    "C02_register_equality",
    "C02_short_slice_panics"
   ],
   "note": ""
  },
  {
   "property": "C03",
   "status": "proved",
   "theorems": [
    "C03_i2c_register_roundtrip",
    "C03_i2c_register_decoding",
    "C03_i2c_register_setters",
    "C03_reserved_bits_lost",
    "C03_preserves_reserved_bits_refuted"
   ],
   "note": ""
  },
  {
   "property": "C04",
   "status": "proved",
   "theorems": [
    "C04_raw_codes",
    "C04_from_u8",
    "C04_from_f32",
    "C04_to_f32_roundtrip",
    "C04_period_exact",
    "C04_duration",
    "C04_rejects"
   ],
   "note": ""
  },
  {
   "property": "C05",
   "status": "proved",
   "theorems": [
    "C05_resolution_conversions",
    "C05_resolution_rejects",
    "C05_resolution_correction_exact",
    "C05_no_i8_overflow"
   ],
   "note": ""
  },
  {
   "property": "C06",
   "status": "proved",
   "theorems": [
    "C06_encoding",
    "C06_encoding_unique",
    "C06_even_parity",
    "C06_minimum_distance"
   ],
   "note": ""
  },
  {
   "property": "C07",
   "status": "proved",
   "theorems": [
    "C07_single_error_correction"
   ],
   "note": ""
  },
  {
   "property": "C08",
   "status": "proved",
   "theorems": [
    "C08_double_error_detection"
   ],
   "note": ""
  },
  {
   "property": "C09",
   "status": "proved",
   "theorems": [
    "C09_bounded_distance_decoding",
    "C09_only_checksum_errors"
   ],
   "note": ""
  },
  {
   "property": "C10",
   "status": "proved",
   "theorems": [
    "C10_subpage_membership",
    "C10_partition",
    "C10_iterator_ends"
   ],
   "note": ""
  },
  {
   "property": "C11",
   "status": "proved",
   "theorems": [
    "C11_ranges",
    "C11_iterator_ends"
   ],
   "note": ""
  },
  {
   "property": "C12",
   "status": "proved",
   "theorems": [
    "C12_ranges",
    "C12_subpages_disjoint",
    "C12_all_pixels_in_both_subpages",
    "C12_iterator_ends"
   ],
   "note": ""
  },
  {
   "property": "C13",
   "status": "proved",
   "theorems": [
    "C13_frame_read_transactions"
   ],
   "note": ""
  },
  {
   "property": "C14",
   "status": "proved",
   "theorems": [
    "C14_transcript_contents",
    "C14_frame_contents",
    "C14_transcript_always_shows_a_memory"
   ],
   "note": ""
  },
  {
   "property": "C15",
   "status": "proved",
   "theorems": [
    "C15_first_failure_aborts",
    "C15_ok_means_no_failure"
   ],
   "note": ""
  },
  {
   "property": "C16",
   "status": "proved",
   "theorems": [
    "C16_no_panic",
    "C16_small_buffer"
   ],
   "note": ""
  },
  {
   "property": "C17",
   "status": "proved",
   "theorems": [
    "C17_given_calibration",
    "C17_mlx90640",
    "C17_mlx90641",
    "C17_writes"
   ],
   "note": ""
  },
  {
   "property": "C18",
   "status": "proved",
   "theorems": [
    "C18_setters"
   ],
   "note": ""
  },
  {
   "property": "C19",
   "status": "proved",
   "theorems": [
    "C19_cached_settings",
    "C19_resynchronizes",
    "C19_refuted_with_failing_write"
   ],
   "note": ""
  },
  {
   "property": "C20",
   "status": "proved",
   "theorems": [
    "C20_no_new_data",
    "C20_false_means_no_data"
   ],
   "note": ""
  },
  {
   "property": "C21",
   "status": "proved",
   "theorems": [
    "C21_ready_frame_consumed_in_order"
   ],
   "note": ""
  },
  {
   "property": "C22",
   "status": "proved",
   "theorems": [
    "C22_no_partial_image",
    "C22_failed_read_is_reported",
    "C22_failed_acknowledge_has_effects",
    "C22_refuted_for_the_final_write"
   ],
   "note": ""
  },
  {
   "property": "C23",
   "status": "proved",
   "theorems": [
    "C23_only_pixels_of_the_subpage",
    "C23_destination_is_only_written"
   ],
   "note": ""
  },
  {
   "property": "C24",
   "status": "proved",
   "theorems": [
    "C24_full_image"
   ],
   "note": ""
  },
  {
   "property": "C25",
   "status": "proved",
   "theorems": [
    "C25_if_ready_stores_the_same_image",
    "C25_image_to_is_last_measured_subpage",
    "C25_if_ready_is_data_available_then_subpage",
    "C25_other_entry_points_only_read"
   ],
   "note": ""
  },
  {
   "property": "C26",
   "status": "proved",
   "theorems": [
    "C26_emissivity_and_reflected",
    "C26_ambient_changes_only_with_an_image",
    "C26_ambient_is_that_of_the_last_image",
    "C26_no_ambient_before_first_image"
   ],
   "note": ""
  },
  {
   "property": "C27",
   "status": "proved",
   "theorems": [
    "C27_synchronize",
    "C27_poll_bound_irrelevant",
    "C27_static_camera_polls_forever"
   ],
   "note": ""
  },
  {
   "property": "C28",
   "status": "proved",
   "theorems": [
    "C28_a_frame_can_be_lost",
    "C28_flag_is_cleared_blindly"
   ],
   "note": ""
  },
  {
   "property": "C29",
   "status": "proved",
   "theorems": [
    "C29_new_with_calibration",
    "C29_new_640",
    "C29_new_641"
   ],
   "note": ""
  },
  {
   "property": "C30",
   "status": "proved",
   "theorems": [
    "C30_no_mock_error",
    "C30_ram_only_by_harness",
    "C30_no_bus_error_returned",
    "C30_mlx90640",
    "C30_mlx90641"
   ],
   "note": ""
  },
  {
   "property": "C31",
   "status": "proved",
   "theorems": [
    "C31_one_pass_is_two_passes",
    "C31_whole_image"
   ],
   "note": ""
  },
  {
   "property": "C32",
   "status": "proved",
   "theorems": [
    "C32_ignored_when_emissivity_is_one",
    "C32_default",
    "C32_default_ir",
    "C32_self_heating",
    "C32_driver_ignores_reflected"
   ],
   "note": ""
  },
  {
   "property": "C33",
   "status": "proved",
   "theorems": [
    "C33_pixels_are_independent",
    "C33_pixels_are_independent_ir"
   ],
   "note": ""
  },
  {
   "property": "C34",
   "status": "proved",
   "theorems": [
    "C34_code_is_second_form",
    "C34_forms_differ"
   ],
   "note": ""
  },
  {
   "property": "C35",
   "status": "proved",
   "theorems": [
    "C35_delta_v",
    "C35_some_reading_overflows",
    "C35_image_call"
   ],
   "note": ""
  },
  {
   "property": "C36",
   "status": "proved",
   "theorems": [
    "C36_ir_data_monotone"
   ],
   "note": ""
  },
  {
   "property": "C37",
   "status": "proved",
   "theorems": [
    "C37_short_dump_rejected",
    "C37_full_dump_not_rejected",
    "C37_refuted_for_truncated_dumps"
   ],
   "note": ""
  },
  {
   "property": "C38",
   "status": "proved",
   "theorems": [
    "C38_only_calibration_words"
   ],
   "note": ""
  },
  {
   "property": "C39",
   "status": "proved",
   "theorems": [
    "C39_offset",
    "C39_offset_exact",
    "C39_all_pixels"
   ],
   "note": ""
  },
  {
   "property": "C40",
   "status": "proved",
   "theorems": [
    "C40_alpha",
    "C40_alpha_exact",
    "C40_k_ta",
    "C40_k_ta_exact",
    "C40_k_ta_term_fits"
   ],
   "note": ""
  },
  {
   "property": "C41",
   "status": "proved",
   "theorems": [
    "C41_flags",
    "C41_failed_pixel_values",
    "C41_refuted_flags_are_not_used"
   ],
   "note": ""
  },
  {
   "property": "C42",
   "status": "proved",
   "theorems": [
    "C42_integer_parameters",
    "C42_scalar_parameters",
    "C42_k_s_to",
    "C42_tgc",
    "C42_k_v_pixels"
   ],
   "note": ""
  },
  {
   "property": "C43",
   "status": "proved",
   "theorems": [
    "C43_interleave_pixels",
    "C43_chess_and_compensation_pixels",
    "C43_rounding_of_int",
    "C43_rustdoc_simplification"
   ],
   "note": ""
  },
  {
   "property": "C44",
   "status": "proved",
   "theorems": [
    "C44_alpha_ptat",
    "C44_average_sensitivity"
   ],
   "note": ""
  },
  {
   "property": "C45",
   "status": "proved",
   "theorems": [
    "C45_release_640",
    "C45_debug_640",
    "C45_release_641",
    "C45_debug_641"
   ],
   "note": ""
  },
  {
   "property": "C46",
   "status": "proved",
   "theorems": [
    "C46_same_corrected_words",
    "C46_single_bit_faults"
   ],
   "note": ""
  },
  {
   "property": "C47",
   "status": "proved",
   "theorems": [
    "C47_first_uncorrectable_word",
    "C47_never_accepted",
    "C47_unused_words",
    "C47_used_words"
   ],
   "note": ""
  },
  {
   "property": "C48",
   "status": "proved",
   "theorems": [
    "C48_offset",
    "C48_split_values",
    "C48_offset_exact",
    "C48_integer_parameters",
    "C48_scalar_parameters",
    "C48_alpha_cp",
    "C48_k_s_to",
    "C48_k_ta_and_k_v",
    "C48_k_ta_and_k_v_exact",
    "C48_alpha"
   ],
   "note": ""
  },
  {
   "property": "C49",
   "status": "proved",
   "theorems": [
    "C49_average_offset"
   ],
   "note": ""
  },
  {
   "property": "C50",
   "status": "proved",
   "theorems": [
    "C50_full_dump",
    "C50_short_dump_never_accepted",
    "C50_part_of_last_block_missing",
    "C50_refuted_for_shorter_dumps"
   ],
   "note": ""
  },
  {
   "property": "C51",
   "status": "proved",
   "theorems": [
    "C51_failed_flags",
    "C51_outlier_flags",
    "C51_failed_pixel_values"
   ],
   "note": ""
  },
  {
   "property": "C52",
   "status": "proved",
   "theorems": [
    "C52_signed_field",
    "C52_splits_reassemble",
    "C52_split_6_5",
    "C52_read_6_5"
   ],
   "note": ""
  },
  {
   "property": "C53",
   "status": "proved",
   "theorems": [
    "C53_range_corrections",
    "C53_terminates",
    "C53_mlx90640",
    "C53_mlx90641"
   ],
   "note": ""
  },
  {
   "property": "C54",
   "status": "proved",
   "theorems": [
    "C54_k_v_iterator",
    "C54_k_ta_averages"
   ],
   "note": ""
  },
  {
   "property": "C55",
   "status": "proved",
   "theorems": [
    "C55_image_of_transcript",
    "C55_image_values",
    "C55_every_image_is_documented"
   ],
   "note": ""
  },
  {
   "property": "C56",
   "status": "proved",
   "theorems": [
    "C56_control_setters",
    "C56_overwrite_setter",
    "C56_reset_data_available",
    "C56_getters"
   ],
   "note": ""
  },
  {
   "property": "C57",
   "status": "proved",
   "theorems": [
    "C57_read_modify_write"
   ],
   "note": ""
  },
  {
   "property": "C58",
   "status": "proved",
   "theorems": [
    "C58_bus_errors_reported"
   ],
   "note": ""
  },
  {
   "property": "C59",
   "status": "proved",
   "theorems": [
    "C59_image_on_reference_camera"
   ],
   "note": ""
  },
  {
   "property": "C60",
   "status": "proved",
   "theorems": [
    "C60_protected_from_control_register_1",
    "C60_refuted_control_register_2",
    "C60_refuted_other_words",
    "C60_registers_protected"
   ],
   "note": ""
  },
  {
   "property": "C61",
   "status": "proved",
   "theorems": [
    "C61_set_true",
    "C61_refuted_set_false"
   ],
   "note": ""
  },
  {
   "property": "C62",
   "status": "proved",
   "theorems": [
    "C62_calibration_640",
    "C62_calibration_641",
    "C62_new_640",
    "C62_new_641",
    "C62_calls_640",
    "C62_calls_641",
    "C62_release_never_panics",
    "C62_debug_panic_possible_640",
    "C62_images_640",
    "C62_images_641"
   ],
   "note": ""
  },
  {
   "property": "C63",
   "status": "proved",
   "theorems": [
    "C63_status_write_mask",
    "C63_control_write_mask",
    "C63_i2c_write_mask",
    "C63_control_defaults",
    "C63_i2c_default"
   ],
   "note": ""
  },
  {
   "property": "C64",
   "status": "proved",
   "theorems": [
    "C64_low_level",
    "C64_calls",
    "C64_histories",
    "C64_construction",
    "C64_refuted_failed_pixels_are_skipped"
   ],
   "note": ""
  },
  {
   "property": "C65",
   "status": "proved",
   "theorems": [
    "C65_object_temperature",
    "C65_one_temperature",
    "C65_no_signal",
    "C65_equilibrium",
    "C65_image"
   ],
   "note": ""
  },
  {
   "property": "C66",
   "status": "proved",
   "theorems": [
    "C66_stronger_signal_is_hotter",
    "C66_larger_raw_value_is_stronger",
    "C66_frames"
   ],
   "note": ""
  },
  {
   "property": "C67",
   "status": "proved",
   "theorems": [
    "C67_decoded_640",
    "C67_decoded_641",
    "C67_raw_pixels_are_numbers",
    "C67_refuted_for_cleared_ram"
   ],
   "note": ""
  },
  {
   "property": "C68",
   "status": "proved",
   "theorems": [
    "C68_flagged_indexes",
    "C68_flagged_640",
    "C68_failed_pixels_641"
   ],
   "note": ""
  },
  {
   "property": "C69",
   "status": "proved",
   "theorems": [
    "C69_round_trip",
    "C69_try_from",
    "C69_documented",
    "C69_arithmetic",
    "C69_frame_within_ram",
    "C69_address"
   ],
   "note": ""
  },
  {
   "property": "C70",
   "status": "proved",
   "theorems": [
    "C70_dimensions",
    "C70_after_any_history"
   ],
   "note": ""
  },
  {
   "property": "C71",
   "status": "proved",
   "theorems": [
    "C71_checksum_digits",
    "C71_address_debug",
    "C71_checksum_message",
    "C71_debug_determines",
    "C71_error_messages",
    "C71_debug_error",
    "C71_source"
   ],
   "note": ""
  },
  {
   "property": "C72",
   "status": "proved",
   "theorems": [
    "C72_constants_640",
    "C72_constants_641",
    "C72_ambient_640",
    "C72_ambient_641",
    "C72_refuted_for_fractional_alpha",
    "C72_ambient_640_any_alpha",
    "C72_fraction_reads_warmer"
   ],
   "note": ""
  },
  {
   "property": "C73",
   "status": "proved",
   "theorems": [
    "C73_decoded_640",
    "C73_decoded_641",
    "C73_raw_pixels_accurate"
   ],
   "note": ""
  },
  {
   "property": "C74",
   "status": "proved",
   "theorems": [
    "C74_temperatures_accurate",
    "C74_decoded_640",
    "C74_decoded_641",
    "C74_library"
   ],
   "note": ""
  },
  {
   "property": "C75",
   "status": "proved",
   "theorems": [
    "C75_images_640",
    "C75_images_641"
   ],
   "note": ""
  },
  {
   "property": "C76",
   "status": "proved",
   "theorems": [
    "C76_instants",
    "C76_only_status_reads",
    "C76_bound_irrelevant",
    "C76_one_subpage_never_ends"
   ],
   "note": ""
  },
  {
   "property": "C77",
   "status": "proved",
   "theorems": [
    "C77_durations",
    "C77_statistics",
    "C77_even_median_too_small",
    "C77_cast_truncates",
    "C77_default_count",
    "C77_program",
    "C77_default_never_panics"
   ],
   "note": ""
  },
  {
   "property": "C78",
   "status": "proved",
   "theorems": [
    "C78_picture",
    "C78_no_data_shows_zeros",
    "C78_layout",
    "C78_program"
   ],
   "note": ""
  },
  {
   "property": "C79",
   "status": "proved",
   "theorems": [
    "C79_shown_address",
    "C79_address",
    "C79_byte"
   ],
   "note": ""
  },
  {
   "property": "C80",
   "status": "proved",
   "theorems": [
    "C80_replay",
    "C80_same_answers",
    "C80_only_own_address",
    "C80_open_640",
    "C80_open_641",
    "C80_session_640",
    "C80_session_641"
   ],
   "note": ""
  },
  {
   "property": "C81",
   "status": "proved",
   "theorems": [
    "C81_no_interference",
    "C81_open_640",
    "C81_open_641"
   ],
   "note": ""
  },
  {
   "property": "C82",
   "status": "proved",
   "theorems": [
    "C82_buffer_is_not_seen",
    "C82_failed_read_leaves_nothing",
    "C82_failed_reads_leave_nothing"
   ],
   "note": ""
  },
  {
   "property": "C83",
   "status": "proved",
   "theorems": [
    "C83_call_changes_only_its_bits",
    "C83_held_history",
    "C83_held_images",
    "C83_same_image",
    "C83_entering"
   ],
   "note": ""
  },
  {
   "property": "C84",
   "status": "proved",
   "theorems": [
    "C84_call_traffic",
    "C84_image_traffic_is_exact",
    "C84_one_read",
    "C84_history_traffic",
    "C84_construction_traffic"
   ],
   "note": ""
  },
  {
   "property": "C85",
   "status": "proved",
   "theorems": [
    "C85_log",
    "C85_clear",
    "C85_refused"
   ],
   "note": ""
  },
  {
   "property": "C86",
   "status": "proved",
   "theorems": [
    "C86_frequency",
    "C86_zero",
    "C86_longer_is_slower",
    "C86_order"
   ],
   "note": ""
  },
  {
   "property": "C87",
   "status": "proved",
   "theorems": [
    "C87_eeprom_not_read_again_640",
    "C87_eeprom_not_read_again_641",
    "C87_worn_eeprom"
   ],
   "note": ""
  },
  {
   "property": "C88",
   "status": "proved",
   "theorems": [
    "C88_pixel_word_640",
    "C88_pixel_words_641",
    "C88_calls",
    "C88_low_level"
   ],
   "note": ""
  },
  {
   "property": "C89",
   "status": "proved",
   "theorems": [
    "C89_no_frame_lost_repeated_or_torn",
    "C89_up_to_date",
    "C89_every_frame_comes",
    "C89_latest_measurement",
    "C89_full_picture"
   ],
   "note": ""
  },
  {
   "property": "C90",
   "status": "proved",
   "theorems": [
    "C90_synchronize_gets_in_step",
    "C90_then_poll",
    "C90_synchronize_returns"
   ],
   "note": ""
  },
  {
   "property": "C91",
   "status": "proved",
   "theorems": [
    "C91_terminal",
    "C91_rate",
    "C91_terminal_traffic",
    "C91_rate_traffic",
    "C91_terminal_never_panics",
    "C91_rate_panics"
   ],
   "note": ""
  },
  {
   "property": "C92",
   "status": "proved",
   "theorems": [
    "C92_settings_last_seen",
    "C92_unnoticed",
    "C92_noticed",
    "C92_stale_image"
   ],
   "note": ""
  },
  {
   "property": "C93",
   "status": "proved",
   "theorems": [
    "C93_number",
    "C93_readable",
    "C93_order",
    "C93_table",
    "C93_program"
   ],
   "note": ""
  },
  {
   "property": "C94",
   "status": "proved",
   "theorems": [
    "C94_undisturbed_call",
    "C94_recipe",
    "C94_frames_during_sleep",
    "C94_full_or_half"
   ],
   "note": ""
  },
  {
   "property": "C95",
   "status": "proved",
   "theorems": [
    "C95_calibration_640",
    "C95_calibration_641",
    "C95_new_640",
    "C95_new_641",
    "C95_calls",
    "C95_calculations"
   ],
   "note": ""
  },
  {
   "property": "C96",
   "status": "proved",
   "theorems": [
    "C96_each_frame_goes_to_one_user",
    "C96_only_own_frames_show",
    "C96_latest_own_frame",
    "C96_settings_add_up",
    "C96_an_update_is_lost_without_turns"
   ],
   "note": "Turns are whole calls. The camera's side is the free-running camera of C89 (frames) and C19's control register (settings). The hypotheses are shown to hold in C96_applies and C96_settings_concrete; C96_half_a_picture shows two programs that never complete their pictures."
  },
  {
   "property": "C97",
   "status": "proved",
   "theorems": [
    "C97_calls",
    "C97_frames",
    "C97_images",
    "C97_library"
   ],
   "note": "What the library's powf and powi must satisfy is the record orderly (SpecOrder.v); C97_library shows a computable library that satisfies it. For an object colder than its surroundings and a sensitivity that falls with temperature the order over binary32 is not claimed (C66 gives it in exact arithmetic)."
  },
  {
   "property": "C98",
   "status": "proved",
   "theorems": [
    "C98_calls",
    "C98_emissivity",
    "C98_reflected",
    "C98_as_warm_as_the_surroundings",
    "C98_images"
   ],
   "note": "Exact arithmetic (RealOps); C73 and C74 bound the distance of the f32 results from it. The hypotheses hold in C98_concrete. For signals and slopes of the same sign (e.g. a cold object and a sensitivity that falls with temperature) no direction is claimed."
  },
  {
   "property": "C99",
   "status": "proved",
   "theorems": [
    "C99_calls",
    "C99_pixel",
    "C99_image",
    "C99_numbers_are_possible",
    "C99_library"
   ],
   "note": "accurate_powers is C74's assumption on the library; C99_library shows a library with both properties, C99_concrete the datasheet's pixel with an impossible raw value."
  },
  {
   "property": "C100",
   "status": "proved",
   "theorems": [
    "C100_ambient_640",
    "C100_ambient_641"
   ],
   "note": "The claim is about non-strict order: two different readings may round to the same temperature. C100_concrete: the datasheet's frame and the next one."
  },
  {
   "property": "C101",
   "status": "proved",
   "theorems": [
    "C101_pixel",
    "C101_calls",
    "C101_library"
   ],
   "note": "C101_library shows a library with the property (the one of C97). An infinite emissivity or pixel sensitivity is not excluded by a finite value."
  },
  {
   "property": "C102",
   "status": "proved",
   "theorems": [
    "C102_any_bus_speed",
    "C102_keeps_up",
    "C102_throughput",
    "C102_falls_behind",
    "C102_documented_table"
   ],
   "note": "C102_keeps_up / C102_falls_behind against the true maximum; C102_documented_table compares it with the documented one (register.rs 549-553). Clock tolerance of the camera is covered by no_sooner/no_later being inequalities. Not modelled: the 400 kHz limit for the EEPROM, clock stretching."
  },
  {
   "property": "C103",
   "status": "proved",
   "theorems": [
    "C103_pixel_reads",
    "C103_image_reads",
    "C103_attained"
   ],
   "note": "C103_own_reads_fetch shows the hypothesis met by the driver's own reads; the bound counts all bytes of the other transcript, including any writes and failed transactions."
  },
  {
   "property": "C104",
   "status": "proved",
   "theorems": [
    "C104_image_values",
    "C104_panics",
    "C104_saved_640",
    "C104_saved_641"
   ],
   "note": "The camera type of the calibration is one of the two documented ones, and HEIGHT at least the camera's height (as in both type aliases). A CalibrationData whose methods themselves have side effects or give different answers each time is not modelled."
  },
  {
   "property": "C105",
   "status": "proved",
   "theorems": [
    "C105_frame_is_the_drivers",
    "C105_split_is_one_pass",
    "C105_open",
    "C105_same_as_the_driver"
   ],
   "note": "C105_frame_is_the_drivers is an equality of results for every bus state; C105_concrete also shows the difference in interleaved pattern."
  },
  {
   "property": "C106",
   "status": "proved",
   "theorems": [
    "C106_small_height",
    "C106_height_does_not_matter",
    "C106_read_ram",
    "C106_no_panic"
   ],
   "note": "HEIGHT is the capacity of the ArrayVec read_ram collects the ranges into (collecting more panics)."
  },
  {
   "property": "C107",
   "status": "proved",
   "theorems": [
    "C107_where_it_stops",
    "C107_interrupted_call",
    "C107_settings",
    "C107_restart",
    "C107_frame_stays_flagged",
    "C107_frame_is_offered_again"
   ],
   "note": "C107_settings assumes a control register that changes only by being written (as C19); C107_concrete and C107_frame_concrete cut a history at every transaction."
  },
  {
   "property": "C108",
   "status": "proved",
   "theorems": [
    "C108_signals",
    "C108_frames",
    "C108_images_640",
    "C108_images_641"
   ],
   "note": "C108_signals and C108_frames are over exact reals; C108_images_640/641 are about the driver in binary32. C108_hypotheses: two objects one degree apart; C108_concrete: an ordinary pixel, one count is at most 0.1 degrees; C108_images_concrete: the datasheet's frame and one with a count more."
  },
  {
   "property": "C109",
   "status": "proved",
   "theorems": [
    "C109_exact",
    "C109_same_power",
    "C109_accurate",
    "C109_orderly",
    "C109_non_numbers",
    "C109_builds",
    "C109_programs",
    "C109_concrete"
   ],
   "note": "The two routines are modelled from their published algorithms (their sources are not in /repo); negative exponents, where they differ, are not used by the crate. C109_concrete: the two builds with the correctly rounded root; C109_checks: values."
  },
  {
   "property": "C110",
   "status": "proved",
   "theorems": [
    "C110_images_640",
    "C110_images_641"
   ],
   "note": "raw_images_fine is the statement; C110_gain_needed shows why the gain is bounded below; C110_concrete and C110_values: the datasheet's camera and a frame with one count more."
  },
  {
   "property": "C111",
   "status": "proved",
   "theorems": [
    "C111_decoding_640",
    "C111_decoding_641",
    "C111_new",
    "C111_call",
    "C111_run",
    "C111_no_panic",
    "C111_terminal",
    "C111_rate",
    "C111_low_level"
   ],
   "note": "Where exactly the debug build panics is C35 (calls) and C45 (decoding). C111_decoding_stops, C111_decoding_same and C111_call_stops: both alternatives occur. For true-frame-rate only the result is stated, not the transactions up to a panic."
  },
  {
   "property": "C112",
   "status": "proved",
   "theorems": [
    "C112_working_range",
    "C112_ambient",
    "C112_raw_image"
   ],
   "note": "C112_working_range: the hypotheses; C112_ambient and C112_raw_image: the driver. C112_concrete, C112_settings and C112_camera: the sample camera and frame meet them. C112_pole: a frame outside at which the ambient formula has its pole."
  },
  {
   "property": "C113",
   "status": "proved",
   "theorems": [
    "C113_temperatures"
   ],
   "note": "C113_concrete and C113_warm: the sample frame is in the range and its pixel (12, 16), of about 80 degrees, too."
  },
  {
   "property": "C114",
   "status": "proved",
   "theorems": [
    "C114_working_range",
    "C114_ambient",
    "C114_raw_image",
    "C114_temperatures"
   ],
   "note": "C114_working_range: the hypotheses of C72-C74; C114_concrete, C114_camera and C114_warm: a sample frame and camera in the range."
  }
 ]
}