{
 "claims": [
  {
   "property": "C01",
   "status": "proved",
   "theorems": [
    "C01_getbitu_exact"
   ],
   "note": ""
  },
  {
   "property": "C02",
   "status": "proved",
   "theorems": [
    "C02_getbits_exact",
    "C02_getbitS_exact",
    "C02_raise_together"
   ],
   "note": ""
  },
  {
   "property": "C03",
   "status": "proved",
   "theorems": [
    "C03_revbitu_exact",
    "C03_revbitu_rejects",
    "C03_revbits_exact"
   ],
   "note": ""
  },
  {
   "property": "C04",
   "status": "proved",
   "theorems": [
    "C04_crc_is_remainder"
   ],
   "note": ""
  },
  {
   "property": "C05",
   "status": "proved",
   "theorems": [
    "C05_errors_detected",
    "C05_valid_accepted"
   ],
   "note": ""
  },
  {
   "property": "C06",
   "status": "proved",
   "theorems": [
    "C06_framing_sound",
    "C06_framing_reference"
   ],
   "note": ""
  },
  {
   "property": "C07",
   "status": "proved",
   "theorems": [
    "C07_chunk_invariance"
   ],
   "note": ""
  },
  {
   "property": "C08",
   "status": "proved",
   "theorems": [
    "C08_padded_streams"
   ],
   "note": ""
  },
  {
   "property": "C09",
   "status": "partial",
   "theorems": [
    "C09_resync",
    "C09_every_frame",
    "C09_complete",
    "C09_end_of_file_refuted"
   ],
   "note": "The end-of-file clause is false of the code: C09_end_of_file_refuted gives the counterexample (a 3-byte fake header swallows a complete valid frame because the buffer is never flushed). C09_resync proves the rest. C09_every_frame is the exact rule for every valid frame up to the end of the stream (returned, covered by a returned frame, or held back by a longer apparent frame), C09_complete the condition under which nothing is held back."
  },
  {
   "property": "C10",
   "status": "proved",
   "theorems": [
    "C10_total_and_bounded"
   ],
   "note": ""
  },
  {
   "property": "C11",
   "status": "proved",
   "theorems": [
    "C11_parse_errors_exact"
   ],
   "note": ""
  },
  {
   "property": "C12",
   "status": "proved",
   "theorems": [
    "C12_statistics",
    "C12_statistics_bounds",
    "C12_result",
    "C12_no_loss",
    "C12_never_raises",
    "C12_registration",
    "C12_standard",
    "C12_standard_served"
   ],
   "note": "every history of register/decode calls; a keyboard interrupt is the only exception that leaves decode()"
  },
  {
   "property": "C13",
   "status": "partial",
   "theorems": [
    "C13_bare_decode_inverts_partial",
    "C13_bare_decode_exact",
    "C13_msm23_refuted"
   ],
   "note": "Proved in full for MSM1 and MSM4-MSM7. False for MSM2/MSM3: the code estimates 28/43 bits per cell instead of 27/42, so C13_msm23_refuted exhibits a well-formed MSM2 message that is rejected; C13_bare_decode_exact states exactly which messages of every type are decoded."
  },
  {
   "property": "C14",
   "status": "proved",
   "theorems": [
    "C14_accepts_only_messages",
    "C14_exact_length",
    "C14_never_raises"
   ],
   "note": ""
  },
  {
   "property": "C15",
   "status": "partial",
   "theorems": [
    "C15_header_only_never_decoded",
    "C15_header_only_refuted"
   ],
   "note": "The property is false of the code (the minimum length test subtracts the 3 header bytes from the payload length): C15_header_only_refuted; the exact behaviour - always rejected - is proved."
  },
  {
   "property": "C16",
   "status": "proved",
   "theorems": [
    "C16_own_cell",
    "C16_scaled_object",
    "C16_keys"
   ],
   "note": "Phase observables of MSM3 depend on earlier cells of the same satellite: see C18."
  },
  {
   "property": "C17",
   "status": "proved",
   "theorems": [
    "C17_range_accuracy"
   ],
   "note": ""
  },
  {
   "property": "C18",
   "status": "partial",
   "theorems": [
    "C18_phase_reported_partial",
    "C18_phase_dropped_refuted",
    "C18_phase_exact"
   ],
   "note": "The property is false of the code: an invalid fine range switches off the phase of all later signals of that satellite (C18_phase_dropped_refuted). Proved: the exact rule, and the claim when no earlier cell of the satellite has an invalid fine range."
  },
  {
   "property": "C19",
   "status": "proved",
   "theorems": [
    "C19_tlock10_increasing",
    "C19_tlock4_increasing",
    "C19_tables"
   ],
   "note": ""
  },
  {
   "property": "C20",
   "status": "proved",
   "theorems": [
    "C20_codes_injective",
    "C20_codes_have_carriers",
    "C20_scaled_iff_known"
   ],
   "note": ""
  },
  {
   "property": "C21",
   "status": "proved",
   "theorems": [
    "C21_bare_fields",
    "C21_round_trip"
   ],
   "note": "Six layouts transcribed from the standard; every field assignment, any trailing bits."
  },
  {
   "property": "C22",
   "status": "partial",
   "theorems": [
    "C22_qzss_decoded_refuted",
    "C22_1044_never_decoded"
   ],
   "note": "The claim is false of the code: IODC is read as 10 bits but the offset advances by 8, so the length check always fails. Proved: no 1044 frame is ever decoded, in either mode."
  },
  {
   "property": "C23",
   "status": "proved",
   "theorems": [
    "C23_scaled_units",
    "C23_recoverable",
    "C23_exact_units"
   ],
   "note": "Binary64 semantics; every power-of-two unit is exact, the integer is recoverable (tk: for minutes below 60)."
  },
  {
   "property": "C24",
   "status": "proved",
   "theorems": [
    "C24_short_rejected",
    "C24_decoded_iff_long_enough",
    "C24_never_raises",
    "C24_payload_only"
   ],
   "note": ""
  },
  {
   "property": "C25",
   "status": "proved",
   "theorems": [
    "C25_bare_fields",
    "C25_round_trip",
    "C25_scaled_fields",
    "C25_wrong_length",
    "C25_never_raises"
   ],
   "note": "messages 1005/1006: every field assignment, both modes, every other length rejected"
  },
  {
   "property": "C26",
   "status": "proved",
   "theorems": [
    "C26_bare_text",
    "C26_listing_lossless",
    "C26_only_text"
   ],
   "note": "every string content and length; converse included"
  },
  {
   "property": "C27",
   "status": "partial",
   "theorems": [
    "C27_scaled_text_partial",
    "C27_text_unique",
    "C27_dropped",
    "C27_empty_string_refuted"
   ],
   "note": "proved for all messages whose strings are non-empty; refuted for empty strings (C27_empty_string_refuted: the whole message is dropped), C27_dropped gives the exact condition"
  },
  {
   "property": "C28",
   "status": "partial",
   "theorems": [
    "C28_bare_schedule_partial",
    "C28_scaled_schedule_partial",
    "C28_only_announced_count",
    "C28_count_from_length_refuted"
   ],
   "note": "proved for messages stating their number of announcements; the Nm=0 part is false of the code: C28_count_from_length_refuted shows every such message is lost"
  },
  {
   "property": "C29",
   "status": "proved",
   "theorems": [
    "C29_bare_biases",
    "C29_scaled_biases",
    "C29_only_wellformed",
    "C29_wrong_length"
   ],
   "note": "all 16 masks, all values, converse included; the code scales by 0.2 and the theorem says so"
  },
  {
   "property": "C30",
   "status": "proved",
   "theorems": [
    "C30_gps_time",
    "C30_row_time",
    "C30_unknown_day"
   ],
   "note": "every in-range time and day, all GNSS, any leap-second setting 0..10000 s; day 7 ('unknown') is outside the range and gives a time beyond the week (C30_unknown_day)"
  },
  {
   "property": "C31",
   "status": "proved",
   "theorems": [
    "C31_columns",
    "C31_placement",
    "C31_values",
    "C31_decoded_printable",
    "C31_beyond_slots_refuted"
   ],
   "note": "every printable object (every decoded MSM is: C31_decoded_printable) and every setting; satellites beyond the column range (outside the claim) are silently left out: C31_beyond_slots_refuted"
  },
  {
   "property": "C32",
   "status": "proved",
   "theorems": [
    "C32_files",
    "C32_all_created",
    "C32_distinct",
    "C32_same_columns"
   ],
   "note": "every sequence of printed messages with every pattern of creation failures; write failures of an open file are not modelled"
  },
  {
   "property": "C33",
   "status": "proved",
   "theorems": [
    "C33_files",
    "C33_run",
    "C33_decoded_ok",
    "C33_refused_only",
    "C33_other_files",
    "C33_view_irrelevant"
   ],
   "note": "every session of printed objects, both views, every pattern of files that cannot be created; every decoded object is printable (finite floats, Unicode text); read back by an independent JSON reader (JsonSpec.read_json)"
  },
  {
   "property": "C34",
   "status": "partial",
   "theorems": [
    "C34_interrupted_partial",
    "C34_started_partial",
    "C34_created_file_refuted",
    "C34_release_complete",
    "C34_release_partial",
    "C34_release_refuted"
   ],
   "note": "every history and interruption point between the file operations of print; false for one point: interrupted between creating a file and writing its header, release() leaves \"\\r]\" (C34_created_file_refuted). Interruption inside release(): every printed object is in its file, the files not reached lack the last line (C34_release_partial) and so are not JSON (C34_release_refuted)."
  },
  {
   "property": "C35",
   "status": "proved",
   "theorems": [
    "C35_distinct",
    "C35_file_names",
    "C35_own_file_only",
    "C33_files",
    "C33_decoded_ok"
   ],
   "note": "C33_files says which objects are in which file"
  },
  {
   "property": "C36",
   "status": "proved",
   "theorems": [
    "C36_factory",
    "C36_one_printer",
    "C36_delivery",
    "C36_order_irrelevant",
    "C36_jargo_files_distinct"
   ],
   "note": "all four modes, every history of calls, every order in which the set of printers is walked"
  },
  {
   "property": "C37",
   "status": "proved",
   "theorems": [
    "C37_statistics",
    "C37_bounds",
    "C37_registration",
    "C37_ready"
   ],
   "note": "every history of set-format/add/print calls with arbitrary sub-printers; exceptions other than assertions also count as errors and propagate"
  },
  {
   "property": "C38",
   "status": "proved",
   "theorems": [
    "C38_products",
    "C38_json_files",
    "C38_obs_files",
    "C38_statistics",
    "C38_read_size",
    "C38_released_once",
    "C38_files_closed",
    "C38_interrupted_release_refuted"
   ],
   "note": "every content and every way of reading it in pieces; exceptions at every operation, before or during it; the one exception to 'released': an interruption that arrives at the very moment release is called (C38_interrupted_release_refuted)"
  },
  {
   "property": "C39",
   "status": "partial",
   "theorems": [
    "C39_partial",
    "C39_parsing_errors_refuted"
   ],
   "note": "false of the code: parsing errors are not looked at (C39_parsing_errors_refuted). C39_partial: the message is given exactly when decoding and printing errors are zero."
  },
  {
   "property": "C40",
   "status": "partial",
   "theorems": [
    "C40_ephemeris_partial",
    "C40_navic_no_flags",
    "C40_navic_flags_refuted",
    "C40_position",
    "C40_text_bare",
    "C40_text_scaled",
    "C40_schedule",
    "C40_biases",
    "C40_observations",
    "C40_observations_header",
    "C40_bare_observations"
   ],
   "note": "proved for all station messages, all ephemerides except L5_Flag and S_Flag of 1041, which are lost (C40_navic_flags_refuted), and also for observations"
  },
  {
   "property": "C41",
   "status": "proved",
   "theorems": [
    "C41_update",
    "C41_replaced",
    "C41_channels",
    "C41_boxed"
   ],
   "note": "every sequence of init/update calls with missing, readable and broken files, also when an exception escapes; INI text parsing itself (configparser) is trusted, values without % interpolation"
  },
  {
   "property": "C42",
   "status": "partial",
   "theorems": [
    "C42_independent_partial",
    "C42_same_directory_partial",
    "C42_last_wins",
    "C42_exact",
    "C42_same_stem_refuted",
    "C42_nested_source_refuted"
   ],
   "note": "false of the code for two sources that differ in the extension only, and for a source inside another one's work folder (both refuted). Proved for all lists of sources whose work folders are separate, in particular for files of one directory with the same extension. C42_last_wins and C42_exact: for all lists of sources in which nothing is nested, a work folder shared by several sources has the products of the last one; so every source keeps its products exactly if the sources that share a folder give the same products."
  },
  {
   "property": "C43",
   "status": "partial",
   "theorems": [
    "C43_accepted_partial",
    "C43_accepts_partial",
    "C43_structure",
    "C43_objects",
    "C43_default_partial",
    "C43_units",
    "C43_sign_refuted"
   ],
   "note": "false of the code for negative references, which are compared absolutely (C43_sign_refuted; the code takes fabs of the comparison). Proved: the two-sided characterisation for references as the code classifies them, up to 2^-50 of the tolerance; and agreement of everything that is not a float"
  },
  {
   "property": "C44",
   "status": "partial",
   "theorems": [
    "C44_object",
    "C44_number_partial",
    "C44_tiny",
    "C44_number_of_tiny_frame_refuted"
   ],
   "note": "the decoded object depends on the payload alone, for every payload and every history; so does the number for payloads of two bytes or more; with fewer the number is taken from the checksum bytes (C44_number_of_tiny_frame_refuted), but such frames are never decoded (C44_tiny)"
  },
  {
   "property": "C45",
   "status": "proved",
   "theorems": [
    "C45_phase_cycles",
    "C45_doppler_hz"
   ],
   "note": "binary64 arithmetic against exact reals"
  },
  {
   "property": "C46",
   "status": "partial",
   "theorems": [
    "C46_silent_row_loss_refuted",
    "C32_files",
    "C32_all_created"
   ],
   "note": "false of the code: a file that cannot be created makes the row vanish although print succeeds (C46_silent_row_loss_refuted). C32_files with C32_all_created prove it when the files can be created."
  },
  {
   "property": "C47",
   "status": "proved",
   "theorems": [
    "C47_json_product",
    "C47_obs_product",
    "C47_nothing_else"
   ],
   "note": "every source, content and previous state of the files; when output files can be created"
  },
  {
   "property": "C48",
   "status": "partial",
   "theorems": [
    "C48_loading",
    "C48_determined_partial",
    "C48_exact",
    "C48_runs",
    "C48_aliases_refuted",
    "C48_default_section_refuted"
   ],
   "note": "false of the code when two options name one satellite (R1 and R01): the channel depends on set order (C48_aliases_refuted); an option in section DEFAULT makes loading raise (C48_default_section_refuted). Proved for all histories without such aliases; C48_exact: the order does not matter exactly if all options for one satellite agree; C48_runs: the same for runs with and without -i"
  },
  {
   "property": "C49",
   "status": "partial",
   "theorems": [
    "C49_usable_partial",
    "C49_exact",
    "C49_zero_carrier_refuted"
   ],
   "note": "false of the code: channel -2848 is accepted and makes a GLONASS carrier zero, which aborts the conversion (C49_zero_carrier_refuted). Proved for channels within +-1000 (with which all other theorems about observation files hold); C49_exact: for all channels below 2^49 in size, every GLONASS message is printed exactly if no channel is -2848"
  },
  {
   "property": "C50",
   "status": "proved",
   "theorems": [
    "C50_decoded",
    "C50_copy",
    "C50_special_values"
   ],
   "note": "C50_decoded: all objects that the decoder returns. For objects from elsewhere: proved without infinite or None fields (C50_copy), with those the comparison fails or raises (C50_special_values)"
  },
  {
   "property": "C51",
   "status": "proved",
   "theorems": [
    "C51_logs",
    "C51_every_source"
   ],
   "note": "messages of everything below main are arbitrary lists; the loop is only ended by a log that fails after creation or by an exception that leaves decode_rtcm_file"
  },
  {
   "property": "C52",
   "status": "partial",
   "theorems": [
    "C52_aborted_partial",
    "C52_products_lost_refuted"
   ],
   "note": "false of the code: the work folder is deleted before the controls are checked, so a run without valid controls destroys the products of earlier runs (C52_products_lost_refuted). Proved: nothing outside the work folder changes and only the log is in it"
  },
  {
   "property": "C53",
   "status": "proved",
   "theorems": [
    "C53_names",
    "C53_listed",
    "C53_chosen"
   ],
   "note": ""
  },
  {
   "property": "C54",
   "status": "partial",
   "theorems": [
    "C54_offered_partial",
    "C54_pattern_in_path_refuted",
    "C54_folder_offered_refuted",
    "C54_any_directory",
    "C54_shown_entries",
    "C54_own_files",
    "C54_once"
   ],
   "note": "false of the code: a directory name with [ * or ? is taken for a pattern, so files of another directory may be offered (C54_pattern_in_path_refuted), and subdirectories with the extension are offered (C54_folder_offered_refuted). Proved for the other directories: exactly the visible entries with the extension. For all directories: the exact rule (C54_any_directory), everything shown is a visible entry with the extension of a directory at the same depth, and only a [ in the name can hide the directory's own files"
  },
  {
   "property": "C55",
   "status": "partial",
   "theorems": [
    "C55_user_file_partial",
    "C55_user_wins",
    "C55_rule",
    "C55_accepts",
    "C55_defaults_needed",
    "C55_user_file_ignored_refuted"
   ],
   "note": "false of the code when defaults.ini is missing or incomplete: then the file of -i is not used (C55_user_file_ignored_refuted). Proved when defaults.ini is complete; C55_rule and C55_accepts say exactly which files of -i are used and what the controls then are, for all contents of both files"
  },
  {
   "property": "C56",
   "status": "proved",
   "theorems": [
    "C56_run",
    "C56_nothing_else"
   ],
   "note": ""
  },
  {
   "property": "C57",
   "status": "proved",
   "theorems": [
    "C57_answer",
    "C57_other_class"
   ],
   "note": "for objects that do not come from the decoder the comparison may raise (C57_other_class)"
  },
  {
   "property": "C58",
   "status": "proved",
   "theorems": [
    "C58_layout",
    "C58_continued",
    "C58_twice",
    "C58_not_an_option",
    "C58_no_section",
    "C58_no_duplicates",
    "C58_controls",
    "C58_names",
    "C58_shipped"
   ],
   "note": "'%' interpolation is not modelled; C58_layout: option lines are not indented; C58_continued: indented lines belong to the value above them, whatever they look like"
  },
  {
   "property": "C59",
   "status": "proved",
   "theorems": [
    "C59_exact",
    "C59_complete",
    "C59_ends",
    "C59_format",
    "C59_either_side",
    "C59_between"
   ],
   "note": "argparse (Python 3.11) is modelled for this parser; C59_between: sources on both sides of a setting are refused"
  },
  {
   "property": "C60",
   "status": "proved",
   "theorems": [
    "C60_command",
    "C60_directory",
    "C60_shipped",
    "C60_nothing",
    "C60_text",
    "C60_spaces_refuted"
   ],
   "note": "C60_directory needs a path without pattern characters (see C54); C60_spaces_refuted: additional spaces in a command given as one text change its meaning"
  },
  {
   "property": "C61",
   "status": "proved",
   "theorems": [
    "C61_same_run",
    "C61_log",
    "C61_interrupted",
    "C61_not_opened",
    "C61_counts",
    "C61_complete"
   ],
   "note": "texts of exceptions and paths are arbitrary parameters; one interruption at any operation, before or during it"
  },
  {
   "property": "C62",
   "status": "proved",
   "theorems": [
    "C62_remarks",
    "C62_announced"
   ],
   "note": ""
  },
  {
   "property": "C63",
   "status": "proved",
   "theorems": [
    "C63_logs",
    "C63_command"
   ],
   "note": "that the work folder holds nothing besides the log and the products is C56_nothing_else; sources in independent work folders; texts of exceptions and paths are arbitrary parameters"
  },
  {
   "property": "C64",
   "status": "partial",
   "theorems": [
    "C64_console",
    "C64_reported",
    "C64_numbers",
    "C64_command",
    "C64_silent_refuted"
   ],
   "note": "false of the code when the log file cannot be created: then the logger has no handler at all, and errors of the conversion are not shown (C64_silent_refuted). Proved: all other cases, for all outcomes (C64_console, C64_reported) and for whole commands (C64_command). Texts of exceptions and paths are arbitrary parameters"
  },
  {
   "property": "C65",
   "status": "partial",
   "theorems": [
    "C65_defaults",
    "C65_no_controls",
    "C65_missing",
    "C65_user_refuted"
   ],
   "note": "false of the code for the file of -i: sections of defaults.ini are still loaded, so a missing file is never reported and the run goes on with the defaults (C65_missing for all runs, C65_user_refuted). Proved for defaults.ini"
  },
  {
   "property": "C66",
   "status": "proved",
   "theorems": [
    "C66_stem",
    "C66_folder",
    "C66_table",
    "C66_opath",
    "C66_distinct"
   ],
   "note": "that the files hold what they should is C47, C56 and C60; a path is a list of components without separators"
  },
  {
   "property": "C67",
   "status": "proved",
   "theorems": [
    "C67_every_frame",
    "C67_products",
    "C67_conversion",
    "C67_command",
    "C67_stream"
   ],
   "note": "readable messages are those of C13/C14 with known signals; satellites beyond the slots of a system make a row but have no column (C31_beyond_slots_refuted)"
  },
  {
   "property": "C68",
   "status": "proved",
   "theorems": [
    "C68_every_frame",
    "C68_products",
    "C68_conversion",
    "C68_command"
   ],
   "note": "readable messages are those of C13/C14/C21/C25/C27 and so on: bias messages 1230, texts that are valid UTF-8 and not empty, schedules with at least one entry, signals known to the decoder in the scaled modes; 1044 and the flags of 1041 are left out (C22, C27, C28, C15, C40)"
  },
  {
   "property": "C69",
   "status": "partial",
   "theorems": [
    "C69_capture",
    "C69_read_back",
    "C69_test_streams",
    "C69_unwritable_refuted"
   ],
   "note": "false of the code when a capture file cannot be created: the message is then neither decoded nor counted (C69_unwritable_refuted). Proved whenever the files of the mode can be created; the two streams with a broken CRC are left out"
  },
  {
   "property": "C70",
   "status": "partial",
   "theorems": [
    "C70_run",
    "C70_conversion",
    "C70_end",
    "C70_json_row",
    "C70_obs_row",
    "C70_json_refuted"
   ],
   "note": "all but the last sentence is proved; the last sentence is false of the code: a JSON file of a killed conversion lacks its last line and cannot be read as JSON (C70_json_refuted). The run it is compared with has no trouble from the operating system (as in C56)"
  },
  {
   "property": "C71",
   "status": "proved",
   "theorems": [
    "C71_messages",
    "C71_noise",
    "C71_damage",
    "C71_any_damage"
   ],
   "note": "for regular files without interruptions; what happens at the end of the file when fewer bytes follow is C09"
  },
  {
   "property": "C72",
   "status": "proved",
   "theorems": [
    "C72_parts",
    "C72_json_text",
    "C72_runs"
   ],
   "note": "for regular files without interruptions, in which every output file can be created; JSON files are compared as documents and as texts, observation files byte for byte"
  },
  {
   "property": "C73",
   "status": "proved",
   "theorems": [
    "C73_recovery",
    "C73_again"
   ],
   "note": "old work folders can be deleted (in the run considered; earlier runs may fail there) and no regular file is in the place of one; sources in independent work folders as in C42; the messages of the log below main are a parameter (C61-C63 say what they are)"
  },
  {
   "property": "C74",
   "status": "proved",
   "theorems": [
    "C74_alone",
    "C74_order"
   ],
   "note": "for commands that run to the end (no exception leaves the loop: that happens if the log file cannot be opened after it was made, or an interruption arrives while the converter is being released); sources in independent work folders as in C42"
  },
  {
   "property": "C75",
   "status": "proved",
   "theorems": [
    "C75_observations",
    "C75_other_messages",
    "C75_union",
    "C75_bare"
   ],
   "note": "where the operating system lets all files be created; equality of JSON files is equality of the documents they hold"
  },
  {
   "property": "C76",
   "status": "proved",
   "theorems": [
    "C76_lossless",
    "C76_conversion",
    "C76_headers_off_refuted"
   ],
   "note": "equal files, of any two recordings; messages of C68 (those that the decoders accept); C76_headers_off_refuted shows that the condition on the headers is needed"
  },
  {
   "property": "C77",
   "status": "proved",
   "theorems": [
    "C77_products",
    "C77_conversion",
    "C77_fine_ranges_refuted"
   ],
   "note": "C77_fine_ranges_refuted shows that pseudoranges of MSM7 really are not told apart exactly"
  },
  {
   "property": "C78",
   "status": "proved",
   "theorems": [
    "C78_kinds",
    "C78_selection",
    "C78_runs"
   ],
   "note": "for regular files without interruptions, in which every output file can be created"
  },
  {
   "property": "C79",
   "status": "proved",
   "theorems": [
    "C79_classes",
    "C79_decoders"
   ],
   "note": ""
  },
  {
   "property": "C80",
   "status": "proved",
   "theorems": [
    "C80_growing",
    "C80_runs"
   ],
   "note": "for regular files without interruptions, in which every output file can be created"
  }
 ]
}