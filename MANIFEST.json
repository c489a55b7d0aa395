{
 "claims": [
  {
   "property": "C01",
   "status": "proved",
   "theorems": [
    "C01_parse_memory_safe"
   ],
   "note": ""
  },
  {
   "property": "C02",
   "status": "proved",
   "theorems": [
    "C02_size_bound_sharp_refuted"
   ],
   "note": "a witness: 32768 messages of nine bytes"
  },
  {
   "property": "C03",
   "status": "proved",
   "theorems": [
    "C03_parse_terminates",
    "C03_message_count",
    "C85_linear"
   ],
   "note": "the fuel of the model's loops is at most the unread bytes plus two; running out of fuel is a distinct outcome and is excluded; C85_linear counts the steps"
  },
  {
   "property": "C04",
   "status": "proved",
   "theorems": [
    "C04_tl_closed",
    "C04_tl_open"
   ],
   "note": ""
  },
  {
   "property": "C05",
   "status": "proved",
   "theorems": [
    "C05_overflow_iff",
    "C05_no_overflow",
    "C05_no_overflow_refuted"
   ],
   "note": ""
  },
  {
   "property": "C06",
   "status": "proved",
   "theorems": [
    "C06_parsers_disciplined",
    "C06_messages_complete"
   ],
   "note": ""
  },
  {
   "property": "C07",
   "status": "proved",
   "theorems": [
    "C07_checksum_always_matches"
   ],
   "note": ""
  },
  {
   "property": "C08",
   "status": "proved",
   "theorems": [
    "C08_bad_checksum_dropped_alone",
    "C08_neighbours_unchanged"
   ],
   "note": ""
  },
  {
   "property": "C09",
   "status": "proved",
   "theorems": [
    "C09_prefix_stable"
   ],
   "note": ""
  },
  {
   "property": "C10",
   "status": "proved",
   "theorems": [
    "C10_integer_fields",
    "C10_other_fields_refused"
   ],
   "note": ""
  },
  {
   "property": "C11",
   "status": "proved",
   "theorems": [
    "C11_next_byte_decides",
    "C11_field_alone_decides_refuted"
   ],
   "note": ""
  },
  {
   "property": "C12",
   "status": "proved",
   "theorems": [
    "C12_integer_round_trip",
    "C12_created_value"
   ],
   "note": ""
  },
  {
   "property": "C13",
   "status": "proved",
   "theorems": [
    "C13_value_width",
    "C13_long_tl_refuted"
   ],
   "note": ""
  },
  {
   "property": "C14",
   "status": "proved",
   "theorems": [
    "C14_long_integers_refuted"
   ],
   "note": ""
  },
  {
   "property": "C15",
   "status": "proved",
   "theorems": [
    "C15_number_types",
    "C15_other_types"
   ],
   "note": ""
  },
  {
   "property": "C16",
   "status": "proved",
   "theorems": [
    "C16_tl_round_trip"
   ],
   "note": ""
  },
  {
   "property": "C17",
   "status": "proved",
   "theorems": [
    "C17_list_header_round_trip"
   ],
   "note": ""
  },
  {
   "property": "C18",
   "status": "proved",
   "theorems": [
    "C18_octet_string_round_trip",
    "C18_absent_round_trip"
   ],
   "note": ""
  },
  {
   "property": "C19",
   "status": "proved",
   "theorems": [
    "C19_last_octet_string_refuted",
    "C19_one_more_byte"
   ],
   "note": ""
  },
  {
   "property": "C20",
   "status": "proved",
   "theorems": [
    "C20_cmp",
    "C20_cmp_with_hex",
    "C20_odd_text_crashes",
    "C20_other_characters_refuted"
   ],
   "note": ""
  },
  {
   "property": "C21",
   "status": "proved",
   "theorems": [
    "C21_from_hex",
    "C21_hex_exists",
    "C21_strhex"
   ],
   "note": ""
  },
  {
   "property": "C22",
   "status": "proved",
   "theorems": [
    "C22_tables_are_published_crcs"
   ],
   "note": ""
  },
  {
   "property": "C23",
   "status": "proved",
   "theorems": [
    "C23_burst_detected",
    "C23_odd_detected"
   ],
   "note": ""
  },
  {
   "property": "C24",
   "status": "proved",
   "theorems": [
    "C24_odd_still_detected",
    "C24_burst_guarantee_lost_refuted"
   ],
   "note": ""
  },
  {
   "property": "C25",
   "status": "proved",
   "theorems": [
    "C25_message_round_trip",
    "C25_fresh_buffer"
   ],
   "note": "round_trippable is the conjunction of: the fields are what the types allow (writable), every element of the message layout is readable (Item.v) and value lists are unchanged by the DZG workaround"
  },
  {
   "property": "C26",
   "status": "proved",
   "theorems": [
    "C26_object_list_lost",
    "C26_one_object_short"
   ],
   "note": ""
  },
  {
   "property": "C27",
   "status": "proved",
   "theorems": [
    "C27_tupel_rejected",
    "C27_message_lost"
   ],
   "note": ""
  },
  {
   "property": "C28",
   "status": "proved",
   "theorems": [
    "C28_list_lost",
    "C28_sequences_lost",
    "C28_message_lost"
   ],
   "note": ""
  },
  {
   "property": "C29",
   "status": "proved",
   "theorems": [
    "C29_empty_path_writes_nothing",
    "C29_message_lost"
   ],
   "note": ""
  },
  {
   "property": "C30",
   "status": "proved",
   "theorems": [
    "C30_three_part_dropped",
    "C30_rewritten_time_lost",
    "C30_message_lost"
   ],
   "note": ""
  },
  {
   "property": "C31",
   "status": "proved",
   "theorems": [
    "C31_null_body"
   ],
   "note": ""
  },
  {
   "property": "C32",
   "status": "proved",
   "theorems": [
    "C32_file_round_trip"
   ],
   "note": ""
  },
  {
   "property": "C33",
   "status": "proved",
   "theorems": [
    "C33_parsed_messages_are_normal_forms"
   ],
   "note": ""
  },
  {
   "property": "C34",
   "status": "proved",
   "theorems": [
    "C34_file_write_exact",
    "C34_message_write_exact"
   ],
   "note": ""
  },
  {
   "property": "C35",
   "status": "proved",
   "theorems": [
    "C35_sending_parsed_file_overflows",
    "C35_written_file_overflows"
   ],
   "note": ""
  },
  {
   "property": "C36",
   "status": "proved",
   "theorems": [
    "C36_one_byte_lengths_independent",
    "C36_old_contents_matter_refuted"
   ],
   "note": ""
  },
  {
   "property": "C37",
   "status": "proved",
   "theorems": [
    "C37_reads_only_frames"
   ],
   "note": ""
  },
  {
   "property": "C38",
   "status": "proved",
   "theorems": [
    "C38_read_schedule_independent",
    "C38_listen_schedule_independent"
   ],
   "note": ""
  },
  {
   "property": "C39",
   "status": "proved",
   "theorems": [
    "C39_frame_found_after_noise"
   ],
   "note": ""
  },
  {
   "property": "C40",
   "status": "proved",
   "theorems": [
    "C40_escape_bytes_before_frame",
    "C40_frame_missed_refuted"
   ],
   "note": ""
  },
  {
   "property": "C41",
   "status": "proved",
   "theorems": [
    "C41_listen_delivers_every_frame"
   ],
   "note": ""
  },
  {
   "property": "C42",
   "status": "proved",
   "theorems": [
    "C42_long_frame_ends_listening",
    "C42_other_escape_ends_listening",
    "C42_following_frame_lost_refuted"
   ],
   "note": ""
  },
  {
   "property": "C43",
   "status": "proved",
   "theorems": [
    "C43_transport_round_trip",
    "C43_unescaped_payload_refuted"
   ],
   "note": ""
  },
  {
   "property": "C44",
   "status": "proved",
   "theorems": [
    "C44_transport_checksum_ignored"
   ],
   "note": ""
  },
  {
   "property": "C45",
   "status": "proved",
   "theorems": [
    "C45_only_power_entries_change",
    "C45_other_meters_unchanged"
   ],
   "note": ""
  },
  {
   "property": "C46",
   "status": "proved",
   "theorems": [
    "C46_power_is_unsigned"
   ],
   "note": ""
  },
  {
   "property": "C47",
   "status": "proved",
   "theorems": [
    "C47_type_confusion",
    "C47_freeing_leaks_text"
   ],
   "note": ""
  },
  {
   "property": "C48",
   "status": "proved",
   "theorems": [
    "C48_receiver_crashes_iff",
    "C48_conditions_needed"
   ],
   "note": ""
  },
  {
   "property": "C49",
   "status": "proved",
   "theorems": [
    "C49_booleans_print_true",
    "C49_booleans_look_alike"
   ],
   "note": ""
  },
  {
   "property": "C50",
   "status": "proved",
   "theorems": [
    "C50_unit_lookup",
    "C50_unit_codes",
    "C50_unit_names",
    "C50_zero",
    "C50_unit_text"
   ],
   "note": ""
  },
  {
   "property": "C51",
   "status": "proved",
   "theorems": [
    "C51_parse_then_free",
    "C51_nothing_left",
    "C51_parse_builds"
   ],
   "note": "one text of one or two bytes is left per octet string that the DZG workaround retypes (C47), and only if the input contains the beginning of a DZG serial number"
  },
  {
   "property": "C52",
   "status": "proved",
   "theorems": [
    "C52_write_then_free",
    "C52_writing_repeatedly",
    "C52_parse_write_free"
   ],
   "note": "shown on the model with pointers: exactly the old checksum block of every written message stays"
  },
  {
   "property": "C53",
   "status": "proved",
   "theorems": [
    "C53_survival_exact"
   ],
   "note": ""
  },
  {
   "property": "C54",
   "status": "proved",
   "theorems": [
    "C54_plain_time"
   ],
   "note": ""
  },
  {
   "property": "C55",
   "status": "proved",
   "theorems": [
    "C55_result_of_sending"
   ],
   "note": ""
  },
  {
   "property": "C56",
   "status": "proved",
   "theorems": [
    "C56_program",
    "C56_meter_to_screen",
    "C56_single",
    "C56_verbose_frame",
    "C56_verbose_same_lines"
   ],
   "note": "parsing of the command line and opening of the device are not modelled"
  },
  {
   "property": "C57",
   "status": "proved",
   "theorems": [
    "C57_build",
    "C57_build_send_free",
    "C57_build_send_parse",
    "C57_list_add_loses_successors",
    "C57_unknown_tag_loses_data",
    "C57_uuid"
   ],
   "note": "the client program that calls the init and add functions is part of the model; malloc is assumed to succeed"
  },
  {
   "property": "C58",
   "status": "proved",
   "theorems": [
    "C58_up_to_three_bits",
    "C58_with_checksum",
    "C58_longer_refuted",
    "C58_four_bits_refuted"
   ],
   "note": ""
  },
  {
   "property": "C59",
   "status": "proved",
   "theorems": [
    "C59_levels_bounded",
    "C59_tree_levels",
    "C59_levels_reached"
   ],
   "note": ""
  },
  {
   "property": "C60",
   "status": "proved",
   "theorems": [
    "C60_numbers",
    "C60_parse",
    "C60_write",
    "C60_double",
    "C60_program",
    "C60_send_and_parse",
    "C60_meter_to_screen"
   ],
   "note": ""
  },
  {
   "property": "C61",
   "status": "proved",
   "theorems": [
    "C61_rows",
    "C61_cut",
    "C61_back",
    "C61_injective",
    "C61_length"
   ],
   "note": ""
  },
  {
   "property": "C62",
   "status": "proved",
   "theorems": [
    "C62_device",
    "C62_mismatch",
    "C62_help",
    "C62_wrong_letter",
    "C62_all_cases",
    "C62_port"
   ],
   "note": "getopt(3) is modelled as POSIX describes it"
  },
  {
   "property": "C63",
   "status": "proved",
   "theorems": [
    "C63_memory_linear",
    "C63_blocks_linear",
    "C63_peak_linear",
    "C63_peak_is_one"
   ],
   "note": "sizes of structs as in the heap model: 8 bytes for every member"
  },
  {
   "property": "C64",
   "status": "proved",
   "theorems": [
    "C64_message_exact",
    "C64_damaged_exact",
    "C64_file_exact",
    "C64_file_error",
    "C64_file_error_back"
   ],
   "note": "the grammar is Grammar.v; the deviations are the productions marked quirk; runs with an integer overflow (length fields of more than 7 bytes, C04) are excluded"
  },
  {
   "property": "C65",
   "status": "proved",
   "theorems": [
    "C65_standard_message",
    "C65_standard_file",
    "C65_unambiguous",
    "C65_unambiguous_file",
    "C65_only_standard_refuted"
   ],
   "note": ""
  },
  {
   "property": "C66",
   "status": "proved",
   "theorems": [
    "C66_message_written",
    "C66_only_reading",
    "C66_file_written",
    "C66_unknown_body_refuted"
   ],
   "note": "for messages the library writes faithfully at all; the exceptions are those of C14, C16, C17, C26 - C30"
  },
  {
   "property": "C67",
   "status": "proved",
   "theorems": [
    "C67_entry",
    "C67_program",
    "C67_meter_to_screen",
    "C67_exact",
    "C67_text_tells",
    "C67_large_refuted"
   ],
   "note": "printf is modelled after the C standard (glibc's exact rounding), pow is any function within one unit in the last place (C67_pow shows one); C67_large_refuted shows that the bound on exactness is needed."
  },
  {
   "property": "C68",
   "status": "proved",
   "theorems": [
    "C68_strhex_injective",
    "C68_text_line_tells",
    "C68_number_line_tells",
    "C68_kind_refuted"
   ],
   "note": "C68_kind_refuted: the kind of the value cannot be told."
  },
  {
   "property": "C69",
   "status": "proved",
   "theorems": [
    "C69_refusal_is_never_reported",
    "C69_enough",
    "C69_too_little",
    "C69_written_without_checksum_refuted"
   ],
   "note": "the last sentence (writing) is a witness, C69_written_without_checksum_refuted"
  },
  {
   "property": "C70",
   "status": "proved",
   "theorems": [
    "C70_only_what_was_sent",
    "C70_one_bit_in_a_length_refuted"
   ],
   "note": "the second theorem is a counterexample: the claim that one wrong bit is always noticed fails for length fields"
  },
  {
   "property": "C71",
   "status": "proved",
   "theorems": [
    "C71_undefined_shift_iff",
    "C71_undefined_shift_sent"
   ],
   "note": "the value computed by the shift is taken to be the one of every two's-complement compiler"
  },
  {
   "property": "C72",
   "status": "proved",
   "theorems": [
    "C72_same_output",
    "C72_memory",
    "C72_constant_memory"
   ],
   "note": "The receiver with pointers (HeapServerModel.v) refines the one on values for all options; the memory after any number of frames is the memory before plus what C47 loses; the peak is bounded. With -s the program exits without freeing."
  },
  {
   "property": "C73",
   "status": "proved",
   "theorems": [
    "C73_program",
    "C73_bytes",
    "C73_meter_to_screen",
    "C73_text_tells"
   ],
   "note": "PropsScreen.v. What was written before a crash is not described. pow and printf as in C67."
  },
  {
   "property": "C74",
   "status": "proved",
   "theorems": [
    "C74_same_or_crash",
    "C74_enough",
    "C74_too_little"
   ],
   "note": "PropsServerMemory.v. printf(\"%s\") of NULL, which glibc prints as (null), counts as a crash: it is undefined in C."
  },
  {
   "property": "C75",
   "status": "proved",
   "theorems": [
    "C75_same",
    "C75_report",
    "C75_silence",
    "C75_count",
    "C75_short_inputs",
    "C75_types"
   ],
   "note": "PropsReport.v. The line about a local time is in C78."
  },
  {
   "property": "C76",
   "status": "proved",
   "theorems": [
    "C76_same",
    "C76_read",
    "C76_small_buffer",
    "C76_ending",
    "C76_early_end",
    "C76_failure_reported",
    "C76_end_of_device",
    "C76_read_error",
    "C76_other_escape",
    "C76_long_frame",
    "C76_silent_end_refuted"
   ],
   "note": "PropsEnding.v. The refuted theorem is the fourth reason: a frame that is too long ends listening in silence, and frames that follow are not read."
  },
  {
   "property": "C77",
   "status": "proved",
   "theorems": [
    "C77_same",
    "C77_program",
    "C77_verbose",
    "C77_silence",
    "C77_meter",
    "C77_meter_silent"
   ],
   "note": "PropsStderr.v."
  },
  {
   "property": "C78",
   "status": "proved",
   "theorems": [
    "C78_lines",
    "C78_count",
    "C78_silence",
    "C78_numbers"
   ],
   "note": "PropsLocal.v, ReportFacts.v."
  },
  {
   "property": "C79",
   "status": "proved",
   "theorems": [
    "C79_same",
    "C79_lines",
    "C79_types_only",
    "C79_read_and_written",
    "C79_silent_loss",
    "C79_silence_refuted"
   ],
   "note": "PropsWriteReport.v. The refuted theorem is the last sentence: a message that is written in silence and cannot be read."
  },
  {
   "property": "C80",
   "status": "proved",
   "theorems": [
    "C80_cut",
    "C80_restart",
    "C80_lost_bytes",
    "C80_silent_end"
   ],
   "note": "PropsRestart.v; what is received is the definition `received` there."
  },
  {
   "property": "C81",
   "status": "proved",
   "theorems": [
    "C81_descriptors",
    "C81_random",
    "C81_not_random",
    "C81_unique_refuted",
    "C81_rand_bytes"
   ],
   "note": "Uuid.v, PropsUuid.v. The refuted theorem is the end of the second sentence. The bytes 6 and 8 (version and variant) are those of C57_uuid."
  },
  {
   "property": "C82",
   "status": "proved",
   "theorems": [
    "C82_same",
    "C82_help",
    "C82_wrong_letter",
    "C82_mismatch",
    "C82_no_device",
    "C82_listens",
    "C82_status"
   ],
   "note": "MainReport.v, PropsWhole.v. That these are all command lines is C62_all_cases; the texts and lines of frames are those of C73 and C77. The texts of getopt and strerror belong to the C library and are kept as what they tell."
  },
  {
   "property": "C83",
   "status": "proved",
   "theorems": [
    "C83_sent",
    "C83_received",
    "C83_prefix",
    "C83_nothing_left"
   ],
   "note": "ShortWrite.v, ShortRead.v, ShortHeap.v, PropsShort.v. The program is h_transport_write with any Memory; the checksum is the only memory it asks for. Messages are built while there is memory (C69 says what building without memory does)."
  },
  {
   "property": "C84",
   "status": "proved",
   "theorems": [
    "C84_exactly",
    "C84_new_values",
    "C84_twice",
    "C84_received",
    "C84_many_times",
    "C84_other_lengths_refuted"
   ],
   "note": "outlines (the structure and the lengths of the messages) and message_cells (which bytes are OR-ed to what was there) are the specification; C84_new_values is about a sequence of transmissions of files with equal outlines, C84_many_times about a file in memory that is sent n + 1 times and freed"
  },
  {
   "property": "C85",
   "status": "proved",
   "theorems": [
    "C85_same_parser",
    "C85_linear",
    "C85_always",
    "C85_both_ways"
   ],
   "note": "StepModel repeats the parser with a counter; C85_same_parser says that it is the same parser; the work of malloc, realloc and free is not counted"
  },
  {
   "property": "C86",
   "status": "proved",
   "theorems": [
    "C86_message_freed_twice",
    "C86_file_freed_twice",
    "C86_freed_with_the_file",
    "C86_freed_before_the_file",
    "C86_added_twice",
    "C86_added_to_two_files"
   ],
   "note": "on the heap model; malloc succeeds"
  },
  {
   "property": "C87",
   "status": "proved",
   "theorems": [
    "C87_nothing_else",
    "C87_overflow_found",
    "C87_leak_found",
    "C87_reaches",
    "C87_first_eight_ignored"
   ],
   "note": "on the heap model; malloc succeeds; overflow is a flag of the run and not a fault, as in C05"
  }
 ]
}