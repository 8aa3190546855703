{
 "claims": [
  {
   "property": "C01",
   "status": "proved",
   "theorems": [
    "C01_ihex_round_trip"
   ],
   "note": "all schedules, all CPU counts, LF and CRLF, both letter cases per record, blank lines anywhere"
  },
  {
   "property": "C02",
   "status": "proved",
   "theorems": [
    "C02_upper_half_refuted",
    "C02_upper_half_guarded",
    "C02_as_read"
   ],
   "note": "False: an explicit upper half 0000 before a nonzero one (C02_upper_half_refuted); guarded version proved; C02_as_read says exactly which upper half every data record of any file gets on any number of CPUs"
  },
  {
   "property": "C03",
   "status": "proved",
   "theorems": [
    "C03_schedule_independent"
   ],
   "note": "arbitrary file content"
  },
  {
   "property": "C04",
   "status": "proved",
   "theorems": [
    "C04_cpu_dependent_refuted",
    "C04_cpu_independent_guarded"
   ],
   "note": "false for a valid file with an extended linear address record 0000; guarded version proved for files whose long lines are record lines and have no such record"
  },
  {
   "property": "C05",
   "status": "proved",
   "theorems": [
    "C05_checksum_error_iff"
   ],
   "note": "for lines of whole bytes (odd length); lines of at least 11 characters must have the shape of a record line, see C07"
  },
  {
   "property": "C06",
   "status": "proved",
   "theorems": [
    "C06_corruption_detected",
    "C06_empty_record_refuted"
   ],
   "note": "the one undetected corruption (record without payload, type changed to 04) is exhibited"
  },
  {
   "property": "C07",
   "status": "proved",
   "theorems": [
    "C07_damaged_line_refuted",
    "C07_damaged_line_truncates",
    "C07_damaged_lines_dropped"
   ],
   "note": "False; what the code does instead is proved for any lines and any number of CPUs (C07_damaged_lines_dropped)"
  },
  {
   "property": "C08",
   "status": "proved",
   "theorems": [
    "C08_collisions_guarded",
    "C08_false_collision_refuted"
   ],
   "note": "full statement false with an upper half 0000 (false collision); guarded version proved with the exact map returned next to the error"
  },
  {
   "property": "C09",
   "status": "proved",
   "theorems": [
    "C09_map_sound"
   ],
   "note": "arbitrary file content"
  },
  {
   "property": "C10",
   "status": "proved",
   "theorems": [
    "C10_terminators_blank_lines"
   ],
   "note": "lines free of CR and LF, one terminator per file"
  },
  {
   "property": "C100",
   "status": "proved",
   "theorems": [
    "C100_cut",
    "C100_inside",
    "C100_silent_refuted",
    "C100_chance_refuted",
    "C100_srec_cut",
    "C100_srec_inside",
    "C100_srec_silent_refuted"
   ],
   "note": "False: at a line border, or with less than 11 characters of the next record left, the rest of the file is missing without an error, since neither reader asks for the end record (C100_silent_refuted, C100_srec_silent_refuted); inside a data record, a rest whose bytes add up by chance is taken for a shorter record, since the byte count is not compared (C100_chance_refuted). Guarded version: wherever the file breaks off, either the checksum error or the first bytes of the file's image, none of them wrong (C100_cut, C100_srec_cut). Cuts after whole bytes of a record are refused exactly if the bytes left do not add up (C100_inside from 6 bytes on, C100_srec_inside from 6 bytes on)."
  },
  {
   "property": "C101",
   "status": "proved",
   "theorems": [
    "C101_open",
    "C101_cut",
    "C101_text",
    "C101_silent_refuted"
   ],
   "note": "False: a file that breaks off before /begin PROJECT is read without an error and without a project (C101_silent_refuted). Guarded version: once /begin PROJECT has been read, every file whose tokens have no /end PROJECT is refused (C101_open); so are all files that break off between two tokens, in any layout (C101_cut), and all files whose last lines, after complete ones, are anything without the word PROJECT: a part of a line, a keyword, a text or a comment over several lines (C101_text); ReadCalibration then returns an error and no data, with any hex file."
  },
  {
   "property": "C102",
   "status": "proved",
   "theorems": [
    "C102_intel_guarded",
    "C102_intel_refuted",
    "C102_srec_guarded",
    "C102_srec_refuted"
   ],
   "note": "False: the upper half of the addresses that the first Intel HEX file used last stays in force after its end record, so that data of the second file without an extended linear address record goes to other addresses (C102_intel_refuted); after the S7 record of the first S19 file nothing is read any more, with one CPU the second file, whatever it is, is lost without an error (C102_srec_refuted). Guarded versions: if each data record of the second Intel HEX file has an extended linear address record before it in that file, and if the first S19 file has no S7 record (S9 does no harm), both memories are read; a common address is the error, with the byte of each file (C102_intel_guarded, C102_srec_guarded)."
  },
  {
   "property": "C103",
   "status": "proved",
   "theorems": [
    "C103_intel_guarded",
    "C103_intel_same_length_guarded",
    "C103_intel_refuted",
    "C103_srec",
    "C103_srec_same_length",
    "C103_calibration_guarded"
   ],
   "note": "Proved for S19 (C103_srec, C103_srec_same_length) and for Intel HEX files whose extended linear address records are not 0000 (C103_intel_guarded, C103_intel_same_length_guarded). False for other Intel HEX files: after an upper half 0000 the byte changes at another address (C103_intel_refuted). C103_calibration_guarded: the same through ReadCalibration with an A2L file as in C80."
  },
  {
   "property": "C104",
   "status": "proved",
   "theorems": [
    "C104_intel_more_guarded",
    "C104_intel_less_guarded",
    "C104_intel_refuted",
    "C104_srec_more",
    "C104_srec_less",
    "C104_calibration_more_guarded",
    "C104_calibration_less_guarded"
   ],
   "note": "Proved for S19 (C104_srec_more, C104_srec_less) and for Intel HEX files whose extended linear address records are not 0000 (C104_intel_more_guarded, C104_intel_less_guarded). False for other Intel HEX files: a byte at a free address is refused (C104_intel_refuted). C104_calibration_more_guarded, C104_calibration_less_guarded: the same through ReadCalibration with an A2L file as in C80."
  },
  {
   "property": "C105",
   "status": "proved",
   "theorems": [
    "C105_module",
    "C105_unused_kind",
    "C105_calibration_guarded",
    "C105_other_modules_guarded",
    "C105_one_module_refuted"
   ],
   "note": "C105_module: two modules that differ in a part of their entries. C105_unused_kind: objects of kinds that no function asks for make no difference. C105_calibration_guarded: through ReadCalibration, for files of several modules or of one module that can be shared out; C105_other_modules_guarded: other modules make no difference. False for other files of one module: a group put in makes another group vanish without an error (C105_one_module_refuted, by C48)."
  },
  {
   "property": "C11",
   "status": "proved",
   "theorems": [
    "C11_border_refuted",
    "C02_upper_half_guarded",
    "C11_wraps"
   ],
   "note": "False (16 bit wrap); C11_wraps says in general where the bytes go; records that stay inside their block are covered by C02_upper_half_guarded"
  },
  {
   "property": "C12",
   "status": "proved",
   "theorems": [
    "C12_segment_ignored_refuted",
    "C12_after_end_refuted",
    "C12_other_types_ignored"
   ],
   "note": "false of the code; all other record types are ignored, proved in general"
  },
  {
   "property": "C13",
   "status": "proved",
   "theorems": [
    "C13_byte_count_refuted",
    "C13_count_ignored",
    "C13_upper_half_refuted",
    "C13_srec_count_ignored"
   ],
   "note": "False of the code: the byte count is used only in the checksum, in both formats, for any lines, CPUs and schedules (C13_count_ignored, C13_srec_count_ignored); an extended linear address record with one data byte takes its checksum into the address"
  },
  {
   "property": "C14",
   "status": "proved",
   "theorems": [
    "C14_ihex_completes",
    "C14_srec_completes"
   ],
   "note": "both readers: no reachable state of any goroutine phase is stuck, no infinite schedule, no panic"
  },
  {
   "property": "C15",
   "status": "proved",
   "theorems": [
    "C15_srec_round_trip"
   ],
   "note": "any number of trailing lines that are no S3 lines (S7, blank)"
  },
  {
   "property": "C16",
   "status": "proved",
   "theorems": [
    "C16_header_hides_file",
    "C16_header_hides_part",
    "C16_header_refuted",
    "C16_short_header_guarded"
   ],
   "note": "False: a header of 11 or more characters hides the records of the first goroutine (C16_header_hides_part, any number of CPUs); guarded version for short headers"
  },
  {
   "property": "C17",
   "status": "proved",
   "theorems": [
    "C17_checksum_error_iff"
   ],
   "note": "S3 lines of whole bytes with at least 14 characters, short lines, and a tail without S3 lines"
  },
  {
   "property": "C18",
   "status": "proved",
   "theorems": [
    "C18_collisions"
   ],
   "note": "exact map returned next to the error"
  },
  {
   "property": "C19",
   "status": "proved",
   "theorems": [
    "C19_other_line_truncates",
    "C19_short_addresses_refuted",
    "C19_other_lines_dropped"
   ],
   "note": "False; what the code does instead is proved for any lines and any number of CPUs (C19_other_lines_dropped)"
  },
  {
   "property": "C20",
   "status": "proved",
   "theorems": [
    "C20_corruption_detected"
   ],
   "note": "no exclusions"
  },
  {
   "property": "C21",
   "status": "proved",
   "theorems": [
    "C21_formats_agree_guarded",
    "C21_formats_refuted"
   ],
   "note": "false with an explicit upper half 0000 before a nonzero one, guarded version proved"
  },
  {
   "property": "C22",
   "status": "proved",
   "theorems": [
    "C22_results",
    "C22_no_error_iff",
    "C22_intel_hex_file",
    "C22_s19_file",
    "C22_unreadable",
    "C22_intel_hex_error",
    "C22_s19_error",
    "C22_collision_error"
   ],
   "note": "the A2L reader is a parameter (any set of outcomes); the hex side is the modelled readers, from file bytes to the returned map; a panicking reader crashes the process"
  },
  {
   "property": "C23",
   "status": "proved",
   "theorems": [
    "C23_completes",
    "C23_no_leak",
    "C23_hex_side"
   ],
   "note": "no reachable state is stuck, no infinite schedule, both goroutines finished at return"
  },
  {
   "property": "C24",
   "status": "proved",
   "theorems": [
    "C24_two_errors_refuted",
    "C24_last_error_refuted",
    "C24_one_error_guarded"
   ],
   "note": "false of the code for every pair of different errors; guarded version for one failing reader"
  },
  {
   "property": "C25",
   "status": "proved",
   "theorems": [
    "C25_extension_refuted",
    "C25_selection",
    "C25_extension_guarded"
   ],
   "note": "false of the code (substring search in the whole path); exact selection rule and guarded version proved"
  },
  {
   "property": "C26",
   "status": "proved",
   "theorems": [
    "C26_reading_refuted",
    "C26_no_bytes_guarded",
    "C26_loop_guarded"
   ],
   "note": "Refuted: getBytes panics for every length of at least 8 bits (slice capacity 0 below its length). Lengths below 8 behave as documented; with the slice repaired the reading loop is correct."
  },
  {
   "property": "C27",
   "status": "proved",
   "theorems": [
    "C27_alignment_guarded",
    "C27_borders_1_2_guarded",
    "C27_alignment_refuted",
    "C27_border_zero_refuted"
   ],
   "note": "Refuted: the remainder is added instead of the distance to the next border. Exact condition under which the result is right; right for borders 1 and 2; border 0 panics."
  },
  {
   "property": "C28",
   "status": "proved",
   "theorems": [
    "C28_precedence",
    "C28_in_force",
    "C28_unknown_type"
   ],
   "note": "Only the border in force (record layout, MOD_COMMON, default) enters the result."
  },
  {
   "property": "C29",
   "status": "proved",
   "theorems": [
    "C29_integers_guarded",
    "C29_words_refuted",
    "C29_longs_refuted",
    "C29_widths"
   ],
   "note": "Right (nearest float64, exact below 2^53) for 1 and 8 byte integers; 2 byte words are always an error and 4 byte longs always panic."
  },
  {
   "property": "C30",
   "status": "proved",
   "theorems": [
    "C30_panic_iff",
    "C30_never_panics_guarded",
    "C30_panic_refuted"
   ],
   "note": "Refuted with the exact condition for a panic."
  },
  {
   "property": "C31",
   "status": "proved",
   "theorems": [
    "C31_float32",
    "C31_float64",
    "C31_special",
    "C31_float16_refuted"
   ],
   "note": "FLOAT32/FLOAT64 exact for every pattern; every FLOAT16 number except zero is converted wrongly."
  },
  {
   "property": "C32",
   "status": "proved",
   "theorems": [
    "C32_address_guarded",
    "C32_byte_order_refuted",
    "C32_short_refuted",
    "C32_malformed_refuted",
    "C32_foreign_character"
   ],
   "note": "Right for eight digits in big endian modules; swapped in little endian ones; short texts panic; trailing digits and inner prefixes are accepted."
  },
  {
   "property": "C33",
   "status": "proved",
   "theorems": [
    "C33_identical",
    "C33_missing_iff",
    "C33_linear",
    "C33_linear_exact",
    "C33_other_kinds"
   ],
   "note": "Product and sum each correctly rounded; exact on integers below 2^53."
  },
  {
   "property": "C34",
   "status": "proved",
   "theorems": [
    "C34_inverse_refuted",
    "C34_no_linear_terms_refuted",
    "C34_double_root_guarded",
    "C34_root_guarded",
    "C34_square_root"
   ],
   "note": "Refuted (x^2=4 gives 0; without linear terms only 0 or NaN); right at double roots of integer polynomials. C34_root_guarded: where all steps are exact integers, the first candidate of the formula is returned if it solves the equation and the second otherwise. C34_square_root: the square root is the float64 nearest to the exact one."
  },
  {
   "property": "C35",
   "status": "proved",
   "theorems": [
    "C35_linear_refuted",
    "C35_missing_iff"
   ],
   "note": "Refuted: with a=d=0 every finite value is an error. A missing coefficient is reported, and only a missing one (C35_missing_iff)."
  },
  {
   "property": "C36",
   "status": "proved",
   "theorems": [
    "C36_table",
    "C36_no_table"
   ],
   "note": ""
  },
  {
   "property": "C37",
   "status": "proved",
   "theorems": [
    "C37_verbal_guarded",
    "C37_empty_refuted",
    "C37_no_table"
   ],
   "note": "Holds for tables with at least one pair; an empty table ignores its default."
  },
  {
   "property": "C38",
   "status": "proved",
   "theorems": [
    "C38_range_refuted",
    "C38_outside_guarded",
    "C38_short_refuted"
   ],
   "note": "Refuted: no range is ever matched; right for values outside all ranges; panics if triples are missing."
  },
  {
   "property": "C39",
   "status": "proved",
   "theorems": [
    "C39_interpolation_refuted"
   ],
   "note": "Refuted: always zero without error."
  },
  {
   "property": "C40",
   "status": "proved",
   "theorems": [
    "C40_lookup",
    "C40_index_refuted"
   ],
   "note": "Holds for a module index in range; otherwise a panic."
  },
  {
   "property": "C41",
   "status": "proved",
   "theorems": [
    "C41_value_refuted",
    "C41_errors_guarded"
   ],
   "note": "Refuted: the value returned is always empty; error cases are right."
  },
  {
   "property": "C42",
   "status": "proved",
   "theorems": [
    "C42_words",
    "C42_lines_guarded",
    "C42_slash_refuted",
    "C42_white_space",
    "C42_blank"
   ],
   "note": "Guarded: lines are sequences of plain words, begin/end pairs, quoted texts and comments. Refuted without the guard: a word with a slash (km/h) ends the token list of its part, so that the tokens depend on the CPU count. C42_white_space: words are split exactly at the 25 white space characters of Unicode."
  },
  {
   "property": "C43",
   "status": "proved",
   "theorems": [
    "C43_borders_guarded",
    "C43_multi_line_refuted"
   ],
   "note": "False in general: a comment over several lines gives other tokens with 1, 2 and 4 CPUs. Guarded: holds when no construct spans the border between two parts."
  },
  {
   "property": "C44",
   "status": "proved",
   "theorems": [
    "C44_words_guarded",
    "C44_dropped_refuted",
    "C44_no_error"
   ],
   "note": "False in general: everything after a word with a slash is dropped and no error exists. Guarded: the words of well-formed parts all end up in tokens, in order."
  },
  {
   "property": "C45",
   "status": "proved",
   "theorems": [
    "C45_quoted_guarded",
    "C45_blanks_refuted"
   ],
   "note": "False in general: runs of blanks are delivered as one blank. Guarded: visible words with single blanks between them."
  },
  {
   "property": "C46",
   "status": "proved",
   "theorems": [
    "C46_comment_guarded",
    "C46_line_comment_guarded",
    "C46_lines_guarded",
    "C46_pair_refuted",
    "C46_slashes_refuted"
   ],
   "note": "False between begin and its keyword, and for a comment word with two slashes. Guarded: comments between complete constructs."
  },
  {
   "property": "C47",
   "status": "proved",
   "theorems": [
    "C47_terminates",
    "C47_next"
   ],
   "note": "Every text, every CPU count: all goroutines deliver a list, the collector completes under every schedule. C47_next: the cursor goes to the next word or the next line that is not blank, or ends."
  },
  {
   "property": "C48",
   "status": "proved",
   "theorems": [
    "C48_sequential",
    "C48_total",
    "C48_as_read",
    "C48_guarded",
    "C48_error_guarded",
    "C48_refuted",
    "C48_nested_refuted",
    "C48_race_refuted",
    "C48_keyword_refuted",
    "C48_any_guarded",
    "C48_any_possible",
    "C48_sequential_last",
    "C48_error_any_guarded",
    "C48_quiet_complete",
    "C48_quiet_guarded",
    "C48_sequential_error",
    "C48_loose_guarded",
    "C48_refused_guarded",
    "C48_verdict",
    "C48_error_iff",
    "C48_short",
    "C48_all_lost",
    "C48_short_guarded",
    "C48_lost_few",
    "C48_lost_many_refuted"
   ],
   "note": "False: an object whose begin token lies on a border between the goroutines' shares is lost without an error (C48_as_read: exactly those), an IF_DATA of an object is taken for the module's when a border lies before it inside the object, of two objects of one name either may stay, and unexpected keywords are not reported. C48_any_guarded says what every run returns also when borders cut objects with objects in them and when several objects have the same place; C48_any_possible that each of the outcomes for a place happens in some run. C48_quiet_guarded needs only that the sequential parser reads the module without an error, that it is the first of the file and that IF_DATA, A2ML and the four objects of unread contain no token that begins an object of a module or ends one; its guard does not depend on the borders. C48_sequential_error says exactly when the sequential parser reports an error; C48_error_iff that the parallel one, under the same guard, reports one exactly if a parser refuses an object of the module, and C48_loose_guarded what it returns otherwise. With less than two tokens for each goroutine only the last one reads (C48_short): with as many goroutines as tokens every module is read as empty, without an error (C48_all_lost); with more, exactly as the sequential parser reads it (C48_short_guarded). Less objects than goroutines are lost where C48_as_read applies (C48_lost_few), and for every number of goroutines there is a module of as many objects of which one stays (C48_lost_many_refuted)."
  },
  {
   "property": "C49",
   "status": "proved",
   "theorems": [
    "C49_positions",
    "C49_error"
   ],
   "note": ""
  },
  {
   "property": "C50",
   "status": "proved",
   "theorems": [
    "C50_datatype"
   ],
   "note": "Of RESERVED, which has a size instead of a data type, the lookup is always an error. (parseNoRescaleX never reads the data type, see C64.)"
  },
  {
   "property": "C51",
   "status": "proved",
   "theorems": [
    "C51_one_guarded",
    "C51_more_as_read",
    "C51_refuted"
   ],
   "note": "False for two and more dimensions: the last number becomes the second dimension, without a flag, and the others are lost. Proved for one dimension; what is read for two and three is proved."
  },
  {
   "property": "C52",
   "status": "proved",
   "theorems": [
    "C52_compu_tab"
   ],
   "note": "All tables with 1 to 65535 pairs and an optional default value."
  },
  {
   "property": "C53",
   "status": "proved",
   "theorems": [
    "C53_compu_vtab",
    "C53_compu_vtab_range"
   ],
   "note": "All tables with 1 to 65535 rows and an optional default value."
  },
  {
   "property": "C54",
   "status": "proved",
   "theorems": [
    "C54_guarded",
    "C54_refuted",
    "C54_words_refuted"
   ],
   "note": "False for UWORD and SWORD (32 instead of 16 bits)."
  },
  {
   "property": "C55",
   "status": "proved",
   "theorems": [
    "C55_as_read",
    "C55_refuted"
   ],
   "note": "False for every unit: display text and type overwrite the long identifier. What is read is proved for all units."
  },
  {
   "property": "C56",
   "status": "proved",
   "theorems": [
    "C56_if_data",
    "C56_no_end"
   ],
   "note": ""
  },
  {
   "property": "C57",
   "status": "proved",
   "theorems": [
    "C57_characteristic"
   ],
   "note": ""
  },
  {
   "property": "C58",
   "status": "proved",
   "theorems": [
    "C58_enum_guarded",
    "C58_next_enum",
    "C58_addr_type_guarded",
    "C58_addr_type_refuted",
    "C58_distinct"
   ],
   "note": "False for PLONGLONG, which the parser of address types does not know."
  },
  {
   "property": "C59",
   "status": "proved",
   "theorems": [
    "C59_terminates",
    "C59_end_guarded",
    "C59_truncated_guarded",
    "C59_frame_refuted"
   ],
   "note": "All 209 parsers return from every position of every token list; for all 61 bracketed objects but FRAME a missing end keyword is an error. A truncated FRAME is accepted (refuted with witness)."
  },
  {
   "property": "C60",
   "status": "proved",
   "theorems": [
    "C60_components_refuted",
    "C60_position_refuted",
    "C60_axis_refuted",
    "C60_reserved_refuted",
    "C60_unset_guarded",
    "C60_truncation",
    "C60_out_of_range"
   ],
   "note": "Refuted: reading panics; apart from that positions advance by bits instead of bytes."
  },
  {
   "property": "C61",
   "status": "proved",
   "theorems": [
    "C61_layout",
    "C61_nothing_read_refuted",
    "C61_missing_layout_refuted",
    "C61_reading_refuted",
    "C61_order_refuted",
    "C61_axis_refuted",
    "C61_skipped_refuted",
    "C61_integer_guarded",
    "C61_single_guarded",
    "C61_bad_address_refuted",
    "C61_missing_bytes_refuted"
   ],
   "note": "False: nothing is ever read, because the loop runs over a map that no parser fills (C61_nothing_read_refuted, for every parsed layout); a missing layout crashes. The further refutations show what would happen with that repaired. The guarded theorems (one integer, aligned, byte or 64 bit type) hold with getBytes repaired; with the program's getBytes every read crashes (C26, C61_reading_refuted). An unreadable address stands for address 0, missing bytes for the value 0 (C61_bad_address_refuted, C61_missing_bytes_refuted), without an error."
  },
  {
   "property": "C62",
   "status": "proved",
   "theorems": [
    "C62_as_read",
    "C62_ends_guarded",
    "C62_unchanged_guarded",
    "C62_refuted",
    "C62_quotes_lost",
    "C62_quotes_refuted"
   ],
   "note": "False: every backslash and the character after it are deleted (C62_as_read: exactly those), so that C:\\temp becomes C:emp and the tokenizer never sees an escaped quote. True for files without backslashes. unicode.IsGraphic beyond ASCII is a parameter, of which only that U+FFFD is graphic is used."
  },
  {
   "property": "C63",
   "status": "proved",
   "theorems": [
    "C63_any_text"
   ],
   "note": "Tokenizer under every schedule, then parseA2l with the modules parsed one after the other (parseModule)."
  },
  {
   "property": "C64",
   "status": "proved",
   "theorems": [
    "C64_reads",
    "C64_standard_guarded",
    "C64_standard_refuted"
   ],
   "note": "163 of 191 object parsers read every object of the form that the struct declarations require. For 27 others there is a misread object (refuted); for all 28 a restricted form is proved to be read."
  },
  {
   "property": "C65",
   "status": "proved",
   "theorems": [
    "C65_total",
    "C65_sequential",
    "C65_as_read",
    "C65_guarded",
    "C65_complete",
    "C65_tokens_guarded",
    "C65_no_project_refuted",
    "C65_refuted",
    "C65_unreadable",
    "C65_any_guarded",
    "C65_foreign_refuted",
    "C65_quiet_guarded",
    "C65_verdict_guarded",
    "C65_all_lost",
    "C65_short_guarded",
    "C65_all_lost_refuted",
    "C65_lost_few",
    "C65_lost_many_refuted"
   ],
   "note": "False: the same file is read without an error with a group missing on one CPU and complete on two (C65_refuted); a text without keywords is read without an error and without a project (C65_no_project_refuted). Exactly the objects that begin at a border are missing (C65_as_read). Files with several modules are parsed sequentially and have one outcome (C65_sequential). On one CPU the interface data of a group is taken for the module's (C65_foreign_refuted); what the goroutines read of any module whose cut objects are complete is given by C65_any_guarded. C65_quiet_guarded is the same for whole files under a guard that does not depend on the borders. C65_verdict_guarded covers files with an object that its parser refuses: both parsers report an error. Every file with one module is read without an error and without the objects of the module on a computer with half as many CPUs as the module has tokens (C65_all_lost, witness C65_all_lost_refuted), and completely on computers with more (C65_short_guarded). C65_lost_few: under the same guard each module of the file loses less than 2*cpus objects; C65_lost_many_refuted: for every number of CPUs there is a file of 2*cpus groups of which every run keeps only the first."
  },
  {
   "property": "C66",
   "status": "proved",
   "theorems": [
    "C66_total",
    "C66_results",
    "C66_intel_hex_guarded",
    "C66_s19_guarded",
    "C66_cpus_refuted"
   ],
   "note": "False in general for the reasons of C65 and C02; with the guards of C65 (A2L file) and C01/C15 (hex file) the data are the content of both files."
  },
  {
   "property": "C67",
   "status": "proved",
   "theorems": [
    "C67_lost_refuted",
    "C67_direct_refuted",
    "C67_pointer_refuted",
    "C67_type_ignored_refuted",
    "C67_unfixed_refuted",
    "C67_value_guarded"
   ],
   "note": "False: function values are never stored, the default address type crashes, getFncValues2D ignores FNC_VALUES and returns nothing without FIX_NO_AXIS_PTS_X. C67_value_guarded (a single value) holds with getBytes repaired."
  },
  {
   "property": "C68",
   "status": "proved",
   "theorems": [
    "C68_tokens",
    "C68_nested",
    "C68_strict_guarded",
    "C68_frame",
    "C68_file",
    "C68_compu_vtab_refuted",
    "C68_compu_vtab_range_refuted",
    "C68_var_forbidden_comb_refuted",
    "C68_bit_operation_refuted"
   ],
   "note": "False for four parsers: COMPU_VTAB, COMPU_VTAB_RANGE and VAR_FORBIDDEN_COMB take a begin or end keyword for a text, BIT_OPERATION overwrites the error. C68_nested: all other parsers (FRAME: C68_frame), with the contents of IF_DATA, A2ML and these four not looked at; C68_strict_guarded: without objects of the four. C68_file: whole files parsed sequentially (the parallel parser: C48_keyword_refuted)."
  },
  {
   "property": "C69",
   "status": "proved",
   "theorems": [
    "C69_tokens",
    "C69_parsed",
    "C69_unique",
    "C69_sequential",
    "C69_one_module_as_read",
    "C69_one_module_guarded",
    "C69_plain",
    "C69_standard_guarded",
    "C69_refuted",
    "C69_one_module_refuted"
   ],
   "note": "False of ASAP2 files in general (C69_refuted: a unit; C69_one_module_refuted: parallel parsing on one CPU loses a group). Proved for files with several modules, every CPU count and schedule, whose project is plain, that is uses only what both ASAP2 and the parsers' own grammar (C64) have in common; and for the parsers' own grammar without that guard. For one module with the guard of C65."
  },
  {
   "property": "C70",
   "status": "proved",
   "theorems": [
    "C70_module",
    "C70_constant",
    "C70_modules",
    "C70_tree",
    "C70_file",
    "C70_same",
    "C70_one_module_guarded",
    "C70_one_module_refuted",
    "C70_constant_value_refuted"
   ],
   "note": "Proved for files with several modules (C70_file), every CPU count and schedule, in the parsers' own grammar (C64). False for one module: parallel parsing on one CPU loses a group (C70_one_module_refuted); with the guard of C65 it holds (C70_one_module_guarded). The value of a system constant is always empty (C70_constant_value_refuted)."
  },
  {
   "property": "C71",
   "status": "proved",
   "theorems": [
    "C71_identical",
    "C71_linear",
    "C71_linear_exact",
    "C71_linear_missing",
    "C71_ratfunc",
    "C71_ratfunc_refuted",
    "C71_incomplete",
    "C71_other_kinds",
    "C71_table",
    "C71_table_missing",
    "C71_verbal",
    "C71_range_refuted",
    "C71_no_panic_guarded",
    "C71_short_refuted",
    "C71_file"
   ],
   "note": "False: COEFFS with a=d=0 always give an error (C71_ratfunc_refuted), range tables always give the default (C71_range_refuted), and a range table with fewer rows than announced is read without an error and then panics (C71_short_refuted). Proved for IDENTICAL, LINEAR, TAB_NOINTP and verbal tables, and that no conversion panics, for described modules."
  },
  {
   "property": "C72",
   "status": "proved",
   "theorems": [
    "C72_no_error_lost",
    "C72_no_error_lost_guarded",
    "C72_bit_operation_refuted",
    "C72_file"
   ],
   "note": "False for BIT_OPERATION only, whose parser overwrites the error of an unexpected keyword (C72_bit_operation_refuted). Proved for all other parsers: C72_no_error_lost_guarded for those that cannot contain a BIT_OPERATION, C72_no_error_lost for all, with the parser of BIT_OPERATION taken as a unit."
  },
  {
   "property": "C73",
   "status": "proved",
   "theorems": [
    "C73_unsigned",
    "C73_signed",
    "C73_hex_refuted",
    "C73_extension_refuted"
   ],
   "note": "False: hexadecimal integers are never read (C73_hex_refuted; C73_extension_refuted: ECU_ADDRESS_EXTENSION 0x0 is an error). Proved: exactly the decimal numerals in range are read, with the right value."
  },
  {
   "property": "C74",
   "status": "proved",
   "theorems": [
    "C74_empty_refuted",
    "C74_file_refuted",
    "C74_fixed_guarded"
   ],
   "note": "False: every object with begin and end keyword is accepted without any of its mandatory parameters (C74_empty_refuted, 38 kinds), also in a file (C74_file_refuted). Proved for objects without an end keyword: a parameter cut off by the end of the file or by a keyword in the place of a text is reported (C74_fixed_guarded)."
  },
  {
   "property": "C75",
   "status": "proved",
   "theorems": [
    "C75_accepted",
    "C75_a2l",
    "C75_file",
    "C75_surplus_refuted"
   ],
   "note": "False as far as surplus words go: words that are no keywords are skipped anywhere in objects with an end keyword (C75_surplus_refuted). Proved with that exception, and the exceptions listed in A2lAcceptSpec.v (objects in which keywords pass for words): C75_accepted for the 191 kinds of objects, C75_a2l and C75_file for files read sequentially."
  },
  {
   "property": "C76",
   "status": "proved",
   "theorems": [
    "C76_srec_map_sound"
   ],
   "note": "any text, any number of CPUs, all schedules"
  },
  {
   "property": "C77",
   "status": "proved",
   "theorems": [
    "C77_srec_schedule_independent",
    "C77_srec_layout_guarded",
    "C77_srec_cpus_refuted"
   ],
   "note": "False for files with other lines between S3 lines, such as a header (C77_srec_cpus_refuted): the number of CPUs matters. Proved: schedules never matter; CPUs, line ends and blank lines do not matter for S3 lines and short lines followed by any other lines."
  },
  {
   "property": "C78",
   "status": "proved",
   "theorems": [
    "C78_positions",
    "C78_error",
    "C78_datatype"
   ],
   "note": "for all words the form of parseRecordLayout describes (recordLayoutRead; NO_RESCALE_X is misread, see C64)"
  },
  {
   "property": "C79",
   "status": "proved",
   "theorems": [
    "C79_border",
    "C79_order",
    "C79_layout",
    "C79_nothing_read_refuted",
    "C79_missing_layout_refuted",
    "C79_value_guarded"
   ],
   "note": "False: nothing is read (C79_nothing_read_refuted, for every characteristic of every read module), a missing record layout panics. The choice of record layout, alignment and byte order is proved as stated; reading an integer component is proved with the byte access repaired (getBytes_repaired, not in the repository)."
  },
  {
   "property": "C80",
   "status": "proved",
   "theorems": [
    "C80_files",
    "C80_runs",
    "C80_lookup",
    "C80_table",
    "C80_identical",
    "C80_linear",
    "C80_ratfunc_refuted",
    "C80_verbal",
    "C80_range_refuted",
    "C80_no_panic",
    "C80_nothing_read_refuted",
    "C80_value_guarded"
   ],
   "note": "False for the values, of which the code reads none (C80_nothing_read_refuted), for RAT_FUNC with a = d = 0 (C80_ratfunc_refuted) and for tables of ranges (C80_range_refuted); with the byte access repaired the values are as stated (C80_value_guarded), the other conversions are as written in the file (C80_table, C80_identical, C80_linear, C80_verbal). For single-module A2L files the hypothesis that no object begins at or over a border between goroutines is needed (C65, C69)."
  },
  {
   "property": "C81",
   "status": "proved",
   "theorems": [
    "C81_lines",
    "C81_checksum",
    "C81_as_read",
    "C81_either",
    "C81_stray_ignored",
    "C81_stray_refuted",
    "C81_upper_half_refuted"
   ],
   "note": "False in one point: in a record with an odd number of digits the third last character belongs to no byte; it may be anything (C81_stray_refuted; C81_stray_ignored for all files), and in an extended linear address line of exactly 14 characters it is part of the upper half (C81_upper_half_refuted). C81_as_read says the meaning of such lines too and leaves out only those of 14 characters with type 04."
  },
  {
   "property": "C82",
   "status": "proved",
   "theorems": [
    "C82_checksum",
    "C82_as_read",
    "C82_either",
    "C82_stray_ignored",
    "C82_stray_refuted",
    "C82_no_checksum_refuted"
   ],
   "note": "False in two points: the third last character of a record with an odd number of digits may be anything (C82_stray_refuted, C82_stray_ignored); S3 lines of 12 or 13 characters have no checksum of their own, the end of the address is taken for it (C82_no_checksum_refuted; no data is read from them). The guard of C82_as_read leaves out only lines of 12 or 13 characters."
  },
  {
   "property": "C83",
   "status": "proved",
   "theorems": [
    "C83_no_race",
    "C83_unlock",
    "C83_quiet",
    "C83_completes",
    "C83_atomic",
    "C83_transfer"
   ],
   "note": "C83_transfer carries C01-C19, C76, C81 over to the detailed machine. WaitGroups, channels and mutexes themselves are atomic steps."
  },
  {
   "property": "C84",
   "status": "proved",
   "theorems": [
    "C84_sequence",
    "C84_all_results",
    "C84_ends",
    "C84_overlap_refuted",
    "C84_twice_refuted",
    "C84_panic_refuted"
   ],
   "note": "Calls one after the other: proved for all files, schedules and initial values. False for calls at the same time: a call can return the tree of the other file, an error for a good file, or panic."
  },
  {
   "property": "C85",
   "status": "proved",
   "theorems": [
    "C85_one_reading",
    "C85_tokens",
    "C85_file"
   ],
   "note": "For every content; the only hypothesis is on the parameter for unicode.IsGraphic (U+FFFD is graphic, as in C62)."
  },
  {
   "property": "C86",
   "status": "proved",
   "theorems": [
    "C86_parser",
    "C86_module",
    "C86_file",
    "C86_error_refuted",
    "C86_failed_unsigned",
    "C86_failed_signed"
   ],
   "note": "False with an error: a number that cannot be read is reported, and 0 or the nearest bound is in the tree (C86_error_refuted). Proved for every content and every outcome with this exception, and without it if there is no error. Uses strconv.ParseFloat as a parameter.; also which integer is stored for a text that cannot be read"
  },
  {
   "property": "C87",
   "status": "proved",
   "theorems": [
    "C87_nearest",
    "C87_too_large",
    "C87_only",
    "C87_exact",
    "C87_integer",
    "C87_keywords",
    "C87_parser",
    "C87_file",
    "C87_iff",
    "C87_unique",
    "C87_failed",
    "C87_refuted"
   ],
   "note": "False for texts of more than 100000 characters: of an exponent only the first five digits are used, so that a text for 1 is read as 0 (C87_refuted). Proved for texts of at most 2000 characters, and for all texts with exponents below 100000. About strconv.ParseFloat as modelled in StrconvModel.v (the standard library is trusted to do the same)."
  },
  {
   "property": "C88",
   "status": "proved",
   "theorems": [
    "C88_exact",
    "C88_unique",
    "C88_module",
    "C88_a2l",
    "C88_file"
   ],
   "note": "Nine kinds of objects (FRAME, BIT_OPERATION, OVERWRITE, MEMORY_LAYOUT, VAR_FORBIDDEN_COMB, COMPU_TAB, COMPU_VTAB, COMPU_VTAB_RANGE, VARIANT_CODING) do not follow the common rules; what they are read as is left to their parsers in this statement."
  },
  {
   "property": "C89",
   "status": "proved",
   "theorems": [
    "C89_odd",
    "C89_exact",
    "C89_module",
    "C89_file",
    "C89_columns",
    "C89_swallows_refuted",
    "C89_bits_refuted",
    "C89_overwrite_refuted"
   ],
   "note": "The refuted theorems are witnesses of readings that are hardly intended: an end keyword as a text in a table, an unexpected keyword that is forgotten, a keyword that is stored instead of the word behind it."
  },
  {
   "property": "C90",
   "status": "proved",
   "theorems": [
    "C90_no_panic",
    "C90_verbal",
    "C90_table",
    "C90_range_refuted"
   ],
   "note": "False for tables of ranges: C90_range_refuted shows that for every such table the result is the default or an error, and a panic exactly if rows are missing. The rest holds without any assumption on the file."
  },
  {
   "property": "C91",
   "status": "proved",
   "theorems": [
    "C91_module",
    "C91_file",
    "C91_modules",
    "C91_found",
    "C91_name",
    "C91_refuted",
    "C91_unlisted_refuted",
    "C91_shared_guarded"
   ],
   "note": "The last sentence is false: of two groups with the same name only the second is found (C91_refuted), and a measurement called READ_WRITE, which is missing in the table of keywords, is found under another word (C91_unlisted_refuted). The exact statement C91_file is for files parsed by one goroutine; with several, results can be lost (C48, C65): C91_found (what is found stands in the file) holds always, and C91_shared_guarded, the exact statement, with the guard of C65."
  },
  {
   "property": "C92",
   "status": "proved",
   "theorems": [
    "C92_outcome",
    "C92_nothing_refuted",
    "C92_words"
   ],
   "note": "False: whatever the files are, nothing is read (C92_nothing_refuted). C92_outcome says exactly when the call ends without values and when it panics: if the record layout is missing, or the address has fewer than four bytes and the byte order is a supported one. C92_words (which words are used) holds."
  },
  {
   "property": "C93",
   "status": "proved",
   "theorems": [
    "C93_parser",
    "C93_module",
    "C93_file"
   ],
   "note": "The struct declarations are read from /repo/a2l by tools/gen_structs.py into A2lStructs.v. A check of each parser (flow-sensitive, since buf has another type in each branch) is proved sound and run on all of them."
  },
  {
   "property": "C94",
   "status": "proved",
   "theorems": [
    "C94_error",
    "C94_no_error",
    "C94_places_guarded",
    "C94_utf8_guarded",
    "C94_hidden",
    "C94_hidden_refuted",
    "C94_nan_refuted",
    "C94_places_refuted",
    "C94_any_encoding",
    "C94_repaired",
    "C94_kept"
   ],
   "note": "False in three ways: fields that are not public are not in the map, so that different files have the same map (C94_hidden_refuted); a file with NAN for a number has no map (C94_nan_refuted); in files that are not UTF-8 texts are changed and objects lost (C94_places_refuted). C94_error says exactly when there is no map, C94_no_error that there is one if no token is read as NaN or infinite; C94_places_guarded that the map is right both ways for all public places if the tokens are UTF-8, C94_utf8_guarded that this is so for every file in UTF-8, and C94_hidden that nothing else of the tree shows. C94_any_encoding is the exact statement for files in any encoding: bytes at which no UTF-8 character begins are shown as U+FFFD (C94_repaired: in one way only), and of keys that become the same the last one in byte order is kept (C94_kept: one always is). encoding/json is modelled per type, without the text in between."
  },
  {
   "property": "C95",
   "status": "proved",
   "theorems": [
    "C95_no_panic",
    "C95_ends",
    "C95_no_leak",
    "C95_own_field",
    "C95_no_race",
    "C95_result"
   ],
   "note": "go statements, both wait groups with their counters, the closing goroutine and the collectors are separate steps; a panic is a state. A race is a reachable state in which two goroutines are about to touch the same field, one of them writing (interleavings, not Go's memory model); what the parsing goroutines compute between two sends is one step, as in C48, since it reads the tokens only."
  },
  {
   "property": "C96",
   "status": "proved",
   "theorems": [
    "C96_leak_refuted",
    "C96_ihex_guarded",
    "C96_srec",
    "C96_tokenizer"
   ],
   "note": "False of the Intel HEX reader: calcDataRoutine sends one more message for each record that it cannot decode, main stops receiving at a colliding address, and the channel has room for one message; a witness of five lines leaves a goroutine waiting under every schedule. The only records that pass the checksum and do not decode follow an extended linear address line of exactly 14 characters; guarded: for texts without such a line, and for texts without a collision, all goroutines end. The S-record reader never leaves one behind. Neither does the tokenizer (the goroutines that parse a module: C95_no_leak; those of ReadCalibration: C23)."
  },
  {
   "property": "C97",
   "status": "proved",
   "theorems": [
    "C97_same_memory",
    "C97_s19_order",
    "C97_intel_segments",
    "C97_zero_segment_refuted",
    "C97_calibration"
   ],
   "note": "False as it stands: when an Intel hex file has data under an extended linear address 0000, the order of the segments decides where bytes are found (C97_zero_segment_refuted; consequence of C04/C08). Under the guard of C01 (no data under an explicit upper half 0000 before data under another one): two files of either format with the same bytes are both read to maps that agree, or both refused because of an address that occurs twice, for every number of goroutines and every schedule; permuted S19 lines and permuted Intel segments are special cases; C97_calibration lifts it to ReadCalibration."
  },
  {
   "property": "C98",
   "status": "proved",
   "theorems": [
    "C98_module",
    "C98_calibration",
    "C98_order_refuted",
    "C98_names_refuted"
   ],
   "note": "False: with one module the file with the groups G1 G2 loses G2 without an error on one CPU while the file with G2 G1 keeps both (C98_order_refuted); with two objects of one kind and name the last one counts, on every computer (C98_names_refuted). Guarded version: files that meet the hypotheses of C80 (two modules, or one that can be shared out) and names that occur once (C98_calibration); C98_module is the statement for two chosen modules."
  },
  {
   "property": "C99",
   "status": "proved",
   "theorems": [
    "C99_tokens",
    "C99_same_tokens",
    "C99_layout",
    "C99_write",
    "C99_calibration",
    "C99_comment_refuted"
   ],
   "note": "False: a line break in a comment makes a group in that comment appear in the result, on a computer with one CPU and without an error (C99_comment_refuted). Guarded version: lines of complete constructs (C99_layout); for other texts the result still depends on the tokens only (C99_same_tokens with C85_file). C99_write: the files of C69 to C80 (one token per line) are one such layout, so that those theorems hold of all layouts. C99_calibration: the whole call, with C97 and C98."
  }
 ]
}