#!/usr/bin/env python3
"""Writes MANIFEST.json; the theorem names are checked against the sources."""
import json, re, glob, os
ROOT = os.path.dirname(os.path.dirname(os.path.abspath(__file__)))
C = {}
def c(n, status, theorems, note=""):
    C["C%02d" % n] = dict(property="C%02d" % n, status=status, theorems=theorems.split(), note=note)
c(1, "proved", "C01_parse_memory_safe")
c(2, "proved", "C02_size_bound_sharp_refuted", "a witness: 32768 messages of nine bytes")
c(3, "proved", "C03_parse_terminates C03_message_count C85_linear", "the fuel of the model's loops is at most the unread bytes plus two; running out of fuel is a distinct outcome and is excluded; C85_linear counts the steps")
c(4, "proved", "C04_tl_closed C04_tl_open")
c(5, "proved", "C05_overflow_iff C05_no_overflow C05_no_overflow_refuted")
c(6, "proved", "C06_parsers_disciplined C06_messages_complete")
c(7, "proved", "C07_checksum_always_matches")
c(8, "proved", "C08_bad_checksum_dropped_alone C08_neighbours_unchanged")
c(9, "proved", "C09_prefix_stable")
c(10, "proved", "C10_integer_fields C10_other_fields_refused")
c(11, "proved", "C11_next_byte_decides C11_field_alone_decides_refuted")
c(12, "proved", "C12_integer_round_trip C12_created_value")
c(13, "proved", "C13_value_width C13_long_tl_refuted")
c(14, "proved", "C14_long_integers_refuted")
c(15, "proved", "C15_number_types C15_other_types")
c(16, "proved", "C16_tl_round_trip")
c(17, "proved", "C17_list_header_round_trip")
c(18, "proved", "C18_octet_string_round_trip C18_absent_round_trip")
c(19, "proved", "C19_last_octet_string_refuted C19_one_more_byte")
c(20, "proved", "C20_cmp C20_cmp_with_hex C20_odd_text_crashes C20_other_characters_refuted")
c(21, "proved", "C21_from_hex C21_hex_exists C21_strhex")
c(22, "proved", "C22_tables_are_published_crcs")
c(23, "proved", "C23_burst_detected C23_odd_detected")
c(24, "proved", "C24_odd_still_detected C24_burst_guarantee_lost_refuted")
c(25, "proved", "C25_message_round_trip C25_fresh_buffer", "round_trippable is the conjunction of: the fields are what the types allow (writable), every element of the message layout is readable (Item.v) and value lists are unchanged by the DZG workaround")
c(32, "proved", "C32_file_round_trip")
c(33, "proved", "C33_parsed_messages_are_normal_forms")
c(34, "proved", "C34_file_write_exact C34_message_write_exact")
c(36, "proved", "C36_one_byte_lengths_independent C36_old_contents_matter_refuted")
c(35, "proved", "C35_sending_parsed_file_overflows C35_written_file_overflows")
c(37, "proved", "C37_reads_only_frames")
c(38, "proved", "C38_read_schedule_independent C38_listen_schedule_independent")
c(39, "proved", "C39_frame_found_after_noise")
c(40, "proved", "C40_escape_bytes_before_frame C40_frame_missed_refuted")
c(41, "proved", "C41_listen_delivers_every_frame")
c(42, "proved", "C42_long_frame_ends_listening C42_other_escape_ends_listening C42_following_frame_lost_refuted")
c(43, "proved", "C43_transport_round_trip C43_unescaped_payload_refuted")
c(44, "proved", "C44_transport_checksum_ignored")
c(45, "proved", "C45_only_power_entries_change C45_other_meters_unchanged")
c(46, "proved", "C46_power_is_unsigned")
c(47, "proved", "C47_type_confusion C47_freeing_leaks_text")
c(31, "proved", "C31_null_body")
c(48, "proved", "C48_receiver_crashes_iff C48_conditions_needed")
c(49, "proved", "C49_booleans_print_true C49_booleans_look_alike")
c(50, "proved", "C50_unit_lookup C50_unit_codes C50_unit_names C50_zero C50_unit_text")
c(26, "proved", "C26_object_list_lost C26_one_object_short")
c(27, "proved", "C27_tupel_rejected C27_message_lost")
c(28, "proved", "C28_list_lost C28_sequences_lost C28_message_lost")
c(29, "proved", "C29_empty_path_writes_nothing C29_message_lost")
c(30, "proved", "C30_three_part_dropped C30_rewritten_time_lost C30_message_lost")
c(53, "proved", "C53_survival_exact")
c(51, "proved", "C51_parse_then_free C51_nothing_left C51_parse_builds", "one text of one or two bytes is left per octet string that the DZG workaround retypes (C47), and only if the input contains the beginning of a DZG serial number")
c(52, "proved", "C52_write_then_free C52_writing_repeatedly C52_parse_write_free", "shown on the model with pointers: exactly the old checksum block of every written message stays")
c(54, "proved", "C54_plain_time")
c(55, "proved", "C55_result_of_sending")
c(56, "proved", "C56_program C56_meter_to_screen C56_single C56_verbose_frame C56_verbose_same_lines", "parsing of the command line and opening of the device are not modelled")
c(57, "proved", "C57_build C57_build_send_free C57_build_send_parse C57_list_add_loses_successors C57_unknown_tag_loses_data C57_uuid", "the client program that calls the init and add functions is part of the model; malloc is assumed to succeed")
c(58, "proved", "C58_up_to_three_bits C58_with_checksum C58_longer_refuted C58_four_bits_refuted")
c(59, "proved", "C59_levels_bounded C59_tree_levels C59_levels_reached")
c(60, "proved", "C60_numbers C60_parse C60_write C60_double C60_program C60_send_and_parse C60_meter_to_screen")
c(61, "proved", "C61_rows C61_cut C61_back C61_injective C61_length")
c(62, "proved", "C62_device C62_mismatch C62_help C62_wrong_letter C62_all_cases C62_port", "getopt(3) is modelled as POSIX describes it")
c(63, "proved", "C63_memory_linear C63_blocks_linear C63_peak_linear C63_peak_is_one", "sizes of structs as in the heap model: 8 bytes for every member")
c(64, "proved", "C64_message_exact C64_damaged_exact C64_file_exact C64_file_error C64_file_error_back", "the grammar is Grammar.v; the deviations are the productions marked quirk; runs with an integer overflow (length fields of more than 7 bytes, C04) are excluded")
c(65, "proved", "C65_standard_message C65_standard_file C65_unambiguous C65_unambiguous_file C65_only_standard_refuted")
c(66, "proved", "C66_message_written C66_only_reading C66_file_written C66_unknown_body_refuted", "for messages the library writes faithfully at all; the exceptions are those of C14, C16, C17, C26 - C30")
c(67, "proved", "C67_entry C67_program C67_meter_to_screen C67_exact C67_text_tells C67_large_refuted", "printf is modelled after the C standard (glibc's exact rounding), pow is any function within one unit in the last place (C67_pow shows one); C67_large_refuted shows that the bound on exactness is needed.")
c(68, "proved", "C68_strhex_injective C68_text_line_tells C68_number_line_tells C68_kind_refuted", "C68_kind_refuted: the kind of the value cannot be told.")
c(69, "proved", "C69_refusal_is_never_reported C69_enough C69_too_little C69_written_without_checksum_refuted", "the last sentence (writing) is a witness, C69_written_without_checksum_refuted")
c(70, "proved", "C70_only_what_was_sent C70_one_bit_in_a_length_refuted", "the second theorem is a counterexample: the claim that one wrong bit is always noticed fails for length fields")
c(71, "proved", "C71_undefined_shift_iff C71_undefined_shift_sent", "the value computed by the shift is taken to be the one of every two's-complement compiler")
c(72, "proved", "C72_same_output C72_memory C72_constant_memory", "The receiver with pointers (HeapServerModel.v) refines the one on values for all options; the memory after any number of frames is the memory before plus what C47 loses; the peak is bounded. With -s the program exits without freeing.")
c(73, "proved", "C73_program C73_bytes C73_meter_to_screen C73_text_tells",
  "PropsScreen.v. What was written before a crash is not described. pow and printf as in C67.")
c(74, "proved", "C74_same_or_crash C74_enough C74_too_little",
  "PropsServerMemory.v. printf(\"%s\") of NULL, which glibc prints as (null), counts as a crash: it is undefined in C.")
c(75, "proved", "C75_same C75_report C75_silence C75_count C75_short_inputs C75_types",
  "PropsReport.v. The line about a local time is in C78.")
c(76, "proved", "C76_same C76_read C76_small_buffer C76_ending C76_early_end C76_failure_reported C76_end_of_device C76_read_error C76_other_escape C76_long_frame C76_silent_end_refuted",
  "PropsEnding.v. The refuted theorem is the fourth reason: a frame that is too long ends listening in silence, and frames that follow are not read.")
c(77, "proved", "C77_same C77_program C77_verbose C77_silence C77_meter C77_meter_silent",
  "PropsStderr.v.")
c(78, "proved", "C78_lines C78_count C78_silence C78_numbers",
  "PropsLocal.v, ReportFacts.v.")
c(79, "proved", "C79_same C79_lines C79_types_only C79_read_and_written C79_silent_loss C79_silence_refuted",
  "PropsWriteReport.v. The refuted theorem is the last sentence: a message that is written in silence and cannot be read.")
c(80, "proved", "C80_cut C80_restart C80_lost_bytes C80_silent_end",
  "PropsRestart.v; what is received is the definition `received` there.")
c(81, "proved", "C81_descriptors C81_random C81_not_random C81_unique_refuted C81_rand_bytes",
  "Uuid.v, PropsUuid.v. The refuted theorem is the end of the second sentence. The bytes 6 and 8 (version and variant) are those of C57_uuid.")
c(82, "proved", "C82_same C82_help C82_wrong_letter C82_mismatch C82_no_device C82_listens C82_status",
  "MainReport.v, PropsWhole.v. That these are all command lines is C62_all_cases; the texts and lines of frames are those of C73 and C77. The texts of getopt and strerror belong to the C library and are kept as what they tell.")
c(83, "proved", "C83_sent C83_received C83_prefix C83_nothing_left",
  "ShortWrite.v, ShortRead.v, ShortHeap.v, PropsShort.v. The program is h_transport_write with any Memory; the checksum is the only memory it asks for. Messages are built while there is memory (C69 says what building without memory does).")
c(84, "proved", "C84_exactly C84_new_values C84_twice C84_received C84_many_times C84_other_lengths_refuted",
  "outlines (the structure and the lengths of the messages) and message_cells (which bytes are OR-ed to what was there) are the specification; C84_new_values is about a sequence of transmissions of files with equal outlines, C84_many_times about a file in memory that is sent n + 1 times and freed")
c(85, "proved", "C85_same_parser C85_linear C85_always C85_both_ways",
  "StepModel repeats the parser with a counter; C85_same_parser says that it is the same parser; the work of malloc, realloc and free is not counted")
c(86, "proved", "C86_message_freed_twice C86_file_freed_twice C86_freed_with_the_file C86_freed_before_the_file C86_added_twice C86_added_to_two_files",
  "on the heap model; malloc succeeds")
c(87, "proved", "C87_nothing_else C87_overflow_found C87_leak_found C87_reaches C87_first_eight_ignored",
  "on the heap model; malloc succeeds; overflow is a flag of the run and not a fault, as in C05")
# END
have = set()
for f in glob.glob(ROOT + "/rocq/theories/*.v"):
    have |= set(re.findall(r"^Theorem (\w+)", open(f).read(), re.M))
ids = [json.loads(l)["id"] for l in open(ROOT + "/properties.jsonl")]
used = set()
for k, v in C.items():
    assert k in ids, k
    for t in v["theorems"]:
        assert t in have, t
        used.add(t)
for t in sorted(have - used):
    if re.match(r"C\d\d", t): print("not in the manifest:", t)
json.dump({"claims": [C[i] for i in ids if i in C]}, open(ROOT + "/MANIFEST.json", "w"), indent=1)
print("without claim:", [i for i in ids if i not in C])
