{
 "claims": [
  {
   "property": "C01",
   "status": "proved",
   "theorems": [
    "C01_round_trip"
   ],
   "note": ""
  },
  {
   "property": "C02",
   "status": "proved",
   "theorems": [
    "C02_split_independent"
   ],
   "note": ""
  },
  {
   "property": "C03",
   "status": "proved",
   "theorems": [
    "C03_length"
   ],
   "note": ""
  },
  {
   "property": "C04",
   "status": "proved",
   "theorems": [
    "C04_keystream"
   ],
   "note": ""
  },
  {
   "property": "C05",
   "status": "proved",
   "theorems": [
    "C05_prefix"
   ],
   "note": ""
  },
  {
   "property": "C06",
   "status": "proved",
   "theorems": [
    "C06_key_lengths"
   ],
   "note": ""
  },
  {
   "property": "C07",
   "status": "proved",
   "theorems": [
    "C07_oversized_never_returns",
    "C07_oversized_stream_never_returns",
    "C07_oversized_throws",
    "C07_oversized_hangs",
    "C07_oversized_stream_throws",
    "C07_oversized_stream_hangs",
    "C07_oversized_stream_ends"
   ],
   "note": ""
  },
  {
   "property": "C08",
   "status": "proved",
   "theorems": [
    "C08_height_and_size_wrong",
    "C08_reported_size"
   ],
   "note": ""
  },
  {
   "property": "C09",
   "status": "proved",
   "theorems": [
    "C09_any_body_decrypts",
    "C09_decryption_bijective"
   ],
   "note": ""
  },
  {
   "property": "C10",
   "status": "proved",
   "theorems": [
    "C10_string_iteration",
    "C10_zero_is_one"
   ],
   "note": ""
  },
  {
   "property": "C11",
   "status": "proved",
   "theorems": [
    "C11_bytes_agree"
   ],
   "note": ""
  },
  {
   "property": "C12",
   "status": "proved",
   "theorems": [
    "C12_string_timeout_iff",
    "C12_bytes_timeout_iff",
    "C12_string_result_same",
    "C12_bytes_result_same",
    "C12_short_string_never"
   ],
   "note": ""
  },
  {
   "property": "C13",
   "status": "proved",
   "theorems": [
    "C13_string_reproducible",
    "C13_bytes_reproducible",
    "C13_string_returns",
    "C13_bytes_returns"
   ],
   "note": ""
  },
  {
   "property": "C14",
   "status": "proved",
   "theorems": [
    "C14_api_time_settings_kill",
    "C14_api_time_settings_never_succeed",
    "C14_timed_never_returns",
    "C14_timed_outcome",
    "C14_timed_throws"
   ],
   "note": ""
  },
  {
   "property": "C15",
   "status": "proved",
   "theorems": [
    "C15_counter_text",
    "C15_decimal_unique",
    "C15_injective",
    "C15_never_crashes",
    "C15_huge_salt"
   ],
   "note": ""
  },
  {
   "property": "C16",
   "status": "proved",
   "theorems": [
    "C16_performs_documented",
    "C16_dispatch",
    "C16_invalid_throws"
   ],
   "note": ""
  },
  {
   "property": "C17",
   "status": "proved",
   "theorems": [
    "C17_parts_refine",
    "C17_getPart_returns_part",
    "C17_getPart_unknown"
   ],
   "note": ""
  },
  {
   "property": "C18",
   "status": "proved",
   "theorems": [
    "C18_setters_decide",
    "C18_constructor",
    "C18_getters",
    "C18_setters_throw"
   ],
   "note": ""
  },
  {
   "property": "C19",
   "status": "proved",
   "theorems": [
    "C19_generate_completes",
    "C19_generate_used_throws"
   ],
   "note": ""
  },
  {
   "property": "C20",
   "status": "proved",
   "theorems": [
    "C20_length_and_bounds",
    "C20_complete_has_contents",
    "C20_bounds_attained",
    "C20_bytes_have_this_length"
   ],
   "note": ""
  },
  {
   "property": "C21",
   "status": "proved",
   "theorems": [
    "C21_write_then_read",
    "C21_empty_block_kills_reader"
   ],
   "note": ""
  },
  {
   "property": "C22",
   "status": "proved",
   "theorems": [
    "C22_reads_back",
    "C22_debug_accepts_only",
    "C22_release_exact",
    "C22_salt_must_imitate",
    "C22_decodes_only_valid_headers",
    "C22_silently_other_header_refuted"
   ],
   "note": ""
  },
  {
   "property": "C23",
   "status": "proved",
   "theorems": [
    "C23_never_stale"
   ],
   "note": ""
  },
  {
   "property": "C24",
   "status": "proved",
   "theorems": [
    "C24_wrong_password_hash_detected",
    "C24_outcome"
   ],
   "note": ""
  },
  {
   "property": "C25",
   "status": "proved",
   "theorems": [
    "C25_release_accepts_only",
    "C25_release_accepts",
    "C25_debug_accepts_only",
    "C25_canonical_accepted",
    "C25_release_canonical_refuted"
   ],
   "note": ""
  },
  {
   "property": "C26",
   "status": "proved",
   "theorems": [
    "C26_crashes_exactly",
    "C26_returns_otherwise"
   ],
   "note": ""
  },
  {
   "property": "C27",
   "status": "proved",
   "theorems": [
    "C27_api_encrypted_size",
    "C27_api_written_sizes",
    "C27_size_modulo"
   ],
   "note": ""
  },
  {
   "property": "C28",
   "status": "proved",
   "theorems": [
    "C28_only_full_blocks",
    "C28_round_trip",
    "C28_type_in_clear"
   ],
   "note": ""
  },
  {
   "property": "C29",
   "status": "proved",
   "theorems": [
    "C29_policy"
   ],
   "note": ""
  },
  {
   "property": "C30",
   "status": "proved",
   "theorems": [
    "C30_open_iff",
    "C30_open_result",
    "C30_error_codes"
   ],
   "note": ""
  },
  {
   "property": "C31",
   "status": "proved",
   "theorems": [
    "C31_create_outcome",
    "C31_create_possible",
    "C31_created_file_opens"
   ],
   "note": ""
  },
  {
   "property": "C32",
   "status": "proved",
   "theorems": [
    "C32_write_if_empty_is_stale"
   ],
   "note": ""
  },
  {
   "property": "C33",
   "status": "proved",
   "theorems": [
    "C33_refused",
    "C33_incomplete_settings",
    "C33_next_state"
   ],
   "note": ""
  },
  {
   "property": "C34",
   "status": "proved",
   "theorems": [
    "C34_no_data_without_password"
   ],
   "note": ""
  },
  {
   "property": "C35",
   "status": "proved",
   "theorems": [
    "C35_verify_outcome",
    "C35_selected_file_has_header"
   ],
   "note": ""
  },
  {
   "property": "C36",
   "status": "proved",
   "theorems": [
    "C36_round_trip",
    "C36_written_content",
    "C36_sealed_file_opens"
   ],
   "note": ""
  },
  {
   "property": "C37",
   "status": "proved",
   "theorems": [
    "C37_frame"
   ],
   "note": ""
  },
  {
   "property": "C38",
   "status": "proved",
   "theorems": [
    "C38_torn_file",
    "C38_moments_of_a_save",
    "C38_every_prefix",
    "C38_left_behind"
   ],
   "note": ""
  },
  {
   "property": "C39",
   "status": "proved",
   "theorems": [
    "C39_logout",
    "C39_closed",
    "C39_initial_state_is_new"
   ],
   "note": ""
  },
  {
   "property": "C40",
   "status": "proved",
   "theorems": [
    "C40_late_success",
    "C40_zero_is_not_unlimited",
    "C40_create_keeps_limit"
   ],
   "note": ""
  },
  {
   "property": "C41",
   "status": "proved",
   "theorems": [
    "C41_new_salt"
   ],
   "note": ""
  },
  {
   "property": "C42",
   "status": "proved",
   "theorems": [
    "C42_new_password"
   ],
   "note": ""
  },
  {
   "property": "C43",
   "status": "proved",
   "theorems": [
    "C43_no_names",
    "C43_entry_paths"
   ],
   "note": ""
  },
  {
   "property": "C44",
   "status": "proved",
   "theorems": [
    "C44_failed_encryption",
    "C44_encryption_stays_possible"
   ],
   "note": ""
  },
  {
   "property": "C45",
   "status": "proved",
   "theorems": [
    "C45_plus_minus",
    "C45_minus_plus",
    "C45_length_error",
    "C45_commutative",
    "C45_associative"
   ],
   "note": ""
  },
  {
   "property": "C46",
   "status": "proved",
   "theorems": [
    "C46_fromLong_toLong",
    "C46_minimal",
    "C46_toLong_value",
    "C46_toLong_too_long",
    "C46_getLongLen"
   ],
   "note": ""
  },
  {
   "property": "C47",
   "status": "proved",
   "theorems": [
    "C47_toHex_shape",
    "C47_toHex_injective",
    "C47_unhex"
   ],
   "note": ""
  },
  {
   "property": "C48",
   "status": "proved",
   "theorems": [
    "C48_bounded_list",
    "C48_step"
   ],
   "note": ""
  },
  {
   "property": "C49",
   "status": "proved",
   "theorems": [
    "C49_safe",
    "C49_no_leak",
    "C49_plain",
    "C49_consume_overflow",
    "C49_move_assign",
    "C49_move_twice"
   ],
   "note": ""
  },
  {
   "property": "C50",
   "status": "proved",
   "theorems": [
    "C50_range",
    "C50_onto",
    "C50_inverted_throws"
   ],
   "note": ""
  },
  {
   "property": "C51",
   "status": "proved",
   "theorems": [
    "C51_protocol",
    "C51_total_time"
   ],
   "note": ""
  },
  {
   "property": "C52",
   "status": "proved",
   "theorems": [
    "C52_accepts",
    "C52_undefined"
   ],
   "note": ""
  },
  {
   "property": "C53",
   "status": "proved",
   "theorems": [
    "C53_value_only_on_success",
    "C53_no_value_after_move",
    "C53_second_move_refuted",
    "C53_reference"
   ],
   "note": ""
  },
  {
   "property": "C54",
   "status": "proved",
   "theorems": [
    "C54_stream_cipher_terminates"
   ],
   "note": ""
  },
  {
   "property": "C55",
   "status": "proved",
   "theorems": [
    "C55_read_exact"
   ],
   "note": ""
  },
  {
   "property": "C56",
   "status": "proved",
   "theorems": [
    "C56_step",
    "C56_values",
    "C56_complete"
   ],
   "note": ""
  },
  {
   "property": "C57",
   "status": "proved",
   "theorems": [
    "C57_random_string",
    "C57_only_letters",
    "C57_ends_with_enough_letters"
   ],
   "note": ""
  },
  {
   "property": "C58",
   "status": "proved",
   "theorems": [
    "C58_shared_never_invalidates",
    "C58_valid_is_frozen",
    "C58_refresh",
    "C58_empty_salt_changes_refuted",
    "C58_stale_invalid_refuted"
   ],
   "note": ""
  },
  {
   "property": "C59",
   "status": "proved",
   "theorems": [
    "C59_unset_runtime_undefined"
   ],
   "note": ""
  },
  {
   "property": "C61",
   "status": "proved",
   "theorems": [
    "C61_accepted_password"
   ],
   "note": ""
  },
  {
   "property": "C62",
   "status": "proved",
   "theorems": [
    "C62_same_salt_leaks",
    "C62_saving_keeps_the_salt"
   ],
   "note": ""
  },
  {
   "property": "C63",
   "status": "proved",
   "theorems": [
    "C63_forged_file_opens",
    "C63_any_body_is_sealed",
    "C63_any_body_opens"
   ],
   "note": ""
  },
  {
   "property": "C60",
   "status": "proved",
   "theorems": [
    "C60_dies_exactly",
    "C60_returns_otherwise",
    "C60_never_throws",
    "C60_too_many_files"
   ],
   "note": ""
  },
  {
   "property": "C64",
   "status": "proved",
   "theorems": [
    "C64_content_is_current",
    "C64_empty_file"
   ],
   "note": ""
  },
  {
   "property": "C65",
   "status": "proved",
   "theorems": [
    "C65_emptiness_is_remembered",
    "C65_data_once"
   ],
   "note": ""
  },
  {
   "property": "C66",
   "status": "proved",
   "theorems": [
    "C66_short_write_reported_as_success"
   ],
   "note": ""
  },
  {
   "property": "C67",
   "status": "proved",
   "theorems": [
    "C67_write_is_blind"
   ],
   "note": ""
  },
  {
   "property": "C68",
   "status": "proved",
   "theorems": [
    "C68_delete_outcome",
    "C68_create_then_delete"
   ],
   "note": ""
  },
  {
   "property": "C69",
   "status": "proved",
   "theorems": [
    "C69_reader"
   ],
   "note": ""
  },
  {
   "property": "C70",
   "status": "proved",
   "theorems": [
    "C70_machine"
   ],
   "note": ""
  },
  {
   "property": "C71",
   "status": "proved",
   "theorems": [
    "C71_encrypt_by_length"
   ],
   "note": ""
  },
  {
   "property": "C72",
   "status": "proved",
   "theorems": [
    "C72_decrypt_by_length"
   ],
   "note": ""
  },
  {
   "property": "C73",
   "status": "proved",
   "theorems": [
    "C73_is_data_header"
   ],
   "note": ""
  },
  {
   "property": "C74",
   "status": "proved",
   "theorems": [
    "C74_machine_any_generator",
    "C74_mended",
    "C74_dead_generator"
   ],
   "note": ""
  },
  {
   "property": "C75",
   "status": "proved",
   "theorems": [
    "C75_sizes",
    "C75_hash"
   ],
   "note": ""
  },
  {
   "property": "C77",
   "status": "proved",
   "theorems": [
    "C77_files_as_left",
    "C77_last_save_is_read"
   ],
   "note": ""
  },
  {
   "property": "C78",
   "status": "proved",
   "theorems": [
    "C78_undisturbed_read_is_last_save",
    "C78_undisturbed_read_was_saved",
    "C78_stale_read_refuted"
   ],
   "note": ""
  },
  {
   "property": "C79",
   "status": "proved",
   "theorems": [
    "C79_empty_block_written",
    "C79_new_file_with_empty_block"
   ],
   "note": ""
  },
  {
   "property": "C76",
   "status": "proved",
   "theorems": [
    "C76_endsWith",
    "C76_texts_for_valid_modes",
    "C76_texts_tell_modes_apart",
    "C76_texts_name_the_mode",
    "C76_decimal"
   ],
   "note": ""
  },
  {
   "property": "C80",
   "status": "proved",
   "theorems": [
    "C80_messages_tell_errors_apart",
    "C80_same_details",
    "C80_details_shown",
    "C80_details_hidden",
    "C80_exception_appended",
    "C80_api_codes",
    "C80_says_what_it_is_about",
    "C80_all_codes_refuted"
   ],
   "note": ""
  },
  {
   "property": "C81",
   "status": "proved",
   "theorems": [
    "C81_default_directory"
   ],
   "note": ""
  },
  {
   "property": "C82",
   "status": "proved",
   "theorems": [
    "C82_search",
    "C82_add",
    "C82_setters",
    "C82_calls_return"
   ],
   "note": ""
  },
  {
   "property": "C83",
   "status": "proved",
   "theorems": [
    "C83_saving_loses_everything",
    "C83_one_site"
   ],
   "note": ""
  },
  {
   "property": "C84",
   "status": "proved",
   "theorems": [
    "C84_documented_data_is_undefined",
    "C84_success_only_empty",
    "C84_outcomes"
   ],
   "note": ""
  },
  {
   "property": "C85",
   "status": "proved",
   "theorems": [
    "C85_mode_check",
    "C85_ask_mode",
    "C85_ask_iterations",
    "C85_ask_password",
    "C85_ask_password_forever",
    "C85_ask_password_undefined"
   ],
   "note": ""
  },
  {
   "property": "C86",
   "status": "proved",
   "theorems": [
    "C86_null_rejected",
    "C86_arrays_as_lists",
    "C86_copy_out",
    "C86_addrandom_nonnegative",
    "C86_addrandom_negative",
    "C86_addrandom_any_negative",
    "C86_short_array",
    "C86_fill_object"
   ],
   "note": ""
  },
  {
   "property": "C87",
   "status": "proved",
   "theorems": [
    "C87_stream_same_or_undefined",
    "C87_mem_same_or_undefined",
    "C87_stream_accepted",
    "C87_mem_accepted",
    "C87_hash_mode_byte",
    "C87_file_mode_byte",
    "C87_chain_mode_byte",
    "C87_chain_mode_byte2",
    "C87_encrypted_block",
    "C87_decrypted_type"
   ],
   "note": ""
  },
  {
   "property": "C88",
   "status": "proved",
   "theorems": [
    "C88_nobody_else",
    "C88_file_left_alone",
    "C88_other_files",
    "C88_what_is_selected",
    "C88_save_in_one_piece",
    "C88_mixed_save",
    "C88_create_erases",
    "C88_write_to_erases",
    "C88_vanished_file_selected",
    "C88_complete_reads_refuted"
   ],
   "note": ""
  },
  {
   "property": "C89",
   "status": "proved",
   "theorems": [
    "C89_no_faults",
    "C89_read_errors",
    "C89_pipe_is_empty",
    "C89_directory_refused"
   ],
   "note": ""
  },
  {
   "property": "C90",
   "status": "proved",
   "theorems": [
    "C90_parts",
    "C90_parts_lengths_match_refuted",
    "C90_header",
    "C90_header_mode",
    "C90_header_read",
    "C90_timed_constructor",
    "C90_timed_setters",
    "C90_timed_getters",
    "C90_settings",
    "C90_bytes"
   ],
   "note": ""
  },
  {
   "property": "C91",
   "status": "proved",
   "theorems": [
    "C91_answers",
    "C91_failed",
    "C91_no_value",
    "C91_given_once",
    "C91_after_giving",
    "C91_retry"
   ],
   "note": ""
  },
  {
   "property": "C92",
   "status": "proved",
   "theorems": [
    "C92_no_trace",
    "C92_same_calls",
    "C92_wrong_passwords",
    "C92_attempts"
   ],
   "note": ""
  },
  {
   "property": "C93",
   "status": "proved",
   "theorems": [
    "C93_old_opens_new",
    "C93_more_rounds",
    "C93_linked",
    "C93_planted",
    "C93_planted_session",
    "C93_zero_salt",
    "C93_zero_session"
   ],
   "note": ""
  },
  {
   "property": "C94",
   "status": "proved",
   "theorems": [
    "C94_answers",
    "C94_sizes",
    "C94_if_empty",
    "C94_after_save",
    "C94_data_size_refuted"
   ],
   "note": ""
  },
  {
   "property": "C95",
   "status": "proved",
   "theorems": [
    "C95_same_call",
    "C95_verify_events",
    "C95_create_events",
    "C95_verify_work",
    "C95_answers_cost",
    "C95_create_work",
    "C95_bounded",
    "C95_verify_sequential",
    "C95_create_sequential",
    "C95_same_for_all_passwords",
    "C95_paced",
    "C95_create_stops",
    "C95_verify_runs_on",
    "C95_verify_stops_refuted"
   ],
   "note": ""
  },
  {
   "property": "C96",
   "status": "proved",
   "theorems": [
    "C96_unnoticed",
    "C96_slower",
    "C96_slow_session",
    "C96_slow_work",
    "C96_accepted_after_change"
   ],
   "note": ""
  },
  {
   "property": "C97",
   "status": "proved",
   "theorems": [
    "C97_success_log",
    "C97_guess",
    "C97_guess_select",
    "C97_call",
    "C97_call_any_end",
    "C97_session",
    "C97_info",
    "C97_refused_password"
   ],
   "note": ""
  },
  {
   "property": "C98",
   "status": "proved",
   "theorems": [
    "C98_failure_told",
    "C98_wrong_state_untold",
    "C98_success_quiet",
    "C98_unverified",
    "C98_out_of_time",
    "C98_bad_mode",
    "C98_path_select",
    "C98_path_create",
    "C98_sizes",
    "C98_bad_chain_mode"
   ],
   "note": ""
  },
  {
   "property": "C99",
   "status": "proved",
   "theorems": [
    "C99_alone",
    "C99_moved_from",
    "C99_unnoticed",
    "C99_orphan",
    "C99_orphan_list",
    "C99_answers",
    "C99_orphan_answers",
    "C99_stuck",
    "C99_double_free",
    "C99_revived",
    "C99_lost",
    "C99_lost_path",
    "C99_back_to_start"
   ],
   "note": ""
  },
  {
   "property": "C100",
   "status": "proved",
   "theorems": [
    "C100_codes",
    "C100_refused",
    "C100_misnamed",
    "C100_path",
    "C100_path_cut",
    "C100_fixed",
    "C100_damage",
    "C100_damage_nameless",
    "C100_raw_byte",
    "C100_quotes"
   ],
   "note": ""
  },
  {
   "property": "C101",
   "status": "proved",
   "theorems": [
    "C101_same_call",
    "C101_decrypt_events",
    "C101_encrypt_events",
    "C101_cost",
    "C101_seen",
    "C101_cost_of",
    "C101_decrypt_bound",
    "C101_cut_short",
    "C101_probe_cost",
    "C101_probe_says",
    "C101_probe_passes",
    "C101_probe_without_second"
   ],
   "note": ""
  },
  {
   "property": "C102",
   "status": "proved",
   "theorems": [
    "C102_this_machine",
    "C102_numbers_kept",
    "C102_numbers_sent",
    "C102_short_numbers",
    "C102_written",
    "C102_write_succeeds",
    "C102_read_back",
    "C102_selected",
    "C102_other_refuses",
    "C102_bound",
    "C102_chain_hash",
    "C102_block_round_trip",
    "C102_block_in_clear",
    "C102_random_range",
    "C102_random_constant"
   ],
   "note": ""
  },
  {
   "property": "C103",
   "status": "proved",
   "theorems": [
    "C103_left",
    "C103_tail",
    "C103_key",
    "C103_never"
   ],
   "note": ""
  },
  {
   "property": "C104",
   "status": "proved",
   "theorems": [
    "C104_safe",
    "C104_lost",
    "C104_then",
    "C104_ends"
   ],
   "note": ""
  },
  {
   "property": "C105",
   "status": "proved",
   "theorems": [
    "C105_byte",
    "C105_low",
    "C105_fair",
    "C105_string",
    "C105_number"
   ],
   "note": ""
  },
  {
   "property": "C106",
   "status": "proved",
   "theorems": [
    "C106_asks",
    "C106_cost",
    "C106_enough",
    "C106_key"
   ],
   "note": ""
  },
  {
   "property": "C107",
   "status": "proved",
   "theorems": [
    "C107_asks",
    "C107_cost",
    "C107_enough",
    "C107_decrypt"
   ],
   "note": ""
  },
  {
   "property": "C108",
   "status": "proved",
   "theorems": [
    "C108_possible",
    "C108_program"
   ],
   "note": ""
  },
  {
   "property": "C109",
   "status": "proved",
   "theorems": [
    "C109_headers",
    "C109_stolen",
    "C109_one_file",
    "C109_cost"
   ],
   "note": ""
  },
  {
   "property": "C110",
   "status": "proved",
   "theorems": [
    "C110_stored_as_drawn",
    "C110_only_the_salt",
    "C110_documented_refuted",
    "C110_documented_subtraction_reveals",
    "C110_documented_xor_reveals"
   ],
   "note": ""
  },
  {
   "property": "C111",
   "status": "proved",
   "theorems": [
    "C111_bytes",
    "C111_timed",
    "C111_format",
    "C111_data",
    "C111_data_of_one_mode",
    "C111_reflexive_refuted",
    "C111_same_chain",
    "C111_other_mode_refuted"
   ],
   "note": ""
  },
  {
   "property": "C112",
   "status": "proved",
   "theorems": [
    "C112_no_header",
    "C112_second_unused",
    "C112_other_mode",
    "C112_outcome",
    "C112_kills"
   ],
   "note": ""
  },
  {
   "property": "C113",
   "status": "proved",
   "theorems": [
    "C113_sittings",
    "C113_from_any_state",
    "C113_only_last",
    "C113_undone",
    "C113_same_version",
    "C113_new_salt"
   ],
   "note": ""
  },
  {
   "property": "C114",
   "status": "proved",
   "theorems": [
    "C114_number",
    "C114_bound",
    "C114_certain",
    "C114_header",
    "C114_versions"
   ],
   "note": ""
  },
  {
   "property": "C115",
   "status": "proved",
   "theorems": [
    "C115_count",
    "C115_search",
    "C115_printable",
    "C115_unprintable",
    "C115_any_password"
   ],
   "note": ""
  },
  {
   "property": "C116",
   "status": "proved",
   "theorems": [
    "C116_shortened_file",
    "C116_shortened_opens",
    "C116_lengthened_opens",
    "C116_patched_opens"
   ],
   "note": ""
  },
  {
   "property": "C117",
   "status": "proved",
   "theorems": [
    "C117_file_data",
    "C117_copy",
    "C117_given_once",
    "C117_dead",
    "C117_gives",
    "C117_empty",
    "C117_header",
    "C117_moves"
   ],
   "note": ""
  },
  {
   "property": "C118",
   "status": "proved",
   "theorems": [
    "C118_reader",
    "C118_codes",
    "C118_answers",
    "C118_builds",
    "C118_stream"
   ],
   "note": ""
  },
  {
   "property": "C119",
   "status": "proved",
   "theorems": [
    "C119_codes",
    "C119_attained",
    "C119_never"
   ],
   "note": ""
  },
  {
   "property": "C120",
   "status": "proved",
   "theorems": [
    "C120_create",
    "C120_verify",
    "C120_verify_unlimited",
    "C120_verify_gap"
   ],
   "note": ""
  },
  {
   "property": "C121",
   "status": "proved",
   "theorems": [
    "C121_call",
    "C121_to_release",
    "C121_to_debug",
    "C121_select_stops",
    "C121_stops",
    "C121_own"
   ],
   "note": ""
  },
  {
   "property": "C122",
   "status": "proved",
   "theorems": [
    "C122_field",
    "C122_one_field",
    "C122_reported",
    "C122_cut"
   ],
   "note": ""
  },
  {
   "property": "C123",
   "status": "proved",
   "theorems": [
    "C123_string",
    "C123_array",
    "C123_equal",
    "C123_pieces",
    "C123_from_pieces",
    "C123_refused",
    "C123_full"
   ],
   "note": ""
  },
  {
   "property": "C124",
   "status": "proved",
   "theorems": [
    "C124_once",
    "C124_prefix",
    "C124_prefix_any",
    "C124_debug",
    "C124_release"
   ],
   "note": ""
  }
 ]
}