{
 "claims": [
  {
   "property": "C01",
   "status": "proved",
   "theorems": [
    "C01_lists_are_sequences",
    "C01_one_call"
   ],
   "note": ""
  },
  {
   "property": "C02",
   "status": "proved",
   "theorems": [
    "C02_array_view",
    "C02_array_never_stale"
   ],
   "note": ""
  },
  {
   "property": "C03",
   "status": "proved",
   "theorems": [
    "C03_list_empty",
    "C03_no_touch_after_handover"
   ],
   "note": ""
  },
  {
   "property": "C04",
   "status": "proved",
   "theorems": [
    "C04_tables_are_maps"
   ],
   "note": ""
  },
  {
   "property": "C05",
   "status": "proved",
   "theorems": [
    "C05_table_array_view",
    "C05_table_array_never_stale",
    "C05_table_empty"
   ],
   "note": ""
  },
  {
   "property": "C06",
   "status": "proved",
   "theorems": [
    "C06_part",
    "C06_only_signs",
    "C06_stable_refuted",
    "C06_sort"
   ],
   "note": ""
  },
  {
   "property": "C07",
   "status": "proved",
   "theorems": [
    "C07_ustrcmp_total_order",
    "C07_report_orders",
    "C07_most_frequent_first",
    "C07_row_order_determined",
    "C07_large_counts_refuted"
   ],
   "note": "The comparison routines subtract longs and return int, so the order is proved for counts below 2^31; C07_large_counts_refuted shows it fails beyond."
  },
  {
   "property": "C08",
   "status": "proved",
   "theorems": [
    "C08_decode",
    "C08_reject",
    "C08_safe"
   ],
   "note": ""
  },
  {
   "property": "C09",
   "status": "proved",
   "theorems": [
    "C09_markers"
   ],
   "note": ""
  },
  {
   "property": "C10",
   "status": "proved",
   "theorems": [
    "C10_canonical"
   ],
   "note": ""
  },
  {
   "property": "C11",
   "status": "proved",
   "theorems": [
    "C11_content",
    "C11_idempotent"
   ],
   "note": ""
  },
  {
   "property": "C12",
   "status": "proved",
   "theorems": [
    "C12_append"
   ],
   "note": ""
  },
  {
   "property": "C13",
   "status": "proved",
   "theorems": [
    "C13_header",
    "C13_unterminated_header",
    "C13_no_header",
    "C13_round_trip",
    "C13_long_line_refuted"
   ],
   "note": "Header lines of at most 98 bytes; C13_long_line_refuted shows that the end of a longer line can be taken for a divider."
  },
  {
   "property": "C14",
   "status": "proved",
   "theorems": [
    "C14_round_trip"
   ],
   "note": ""
  },
  {
   "property": "C15",
   "status": "partial",
   "theorems": [
    "C15_string_size_partial",
    "C15_overflow_refuted"
   ],
   "note": "The claim is false of the code: a suspect U+10FFFE/U+10FFFF needs STRING_SIZE+1 bytes (C15_overflow_refuted). Proved for every other case; nothing else is missing."
  },
  {
   "property": "C16",
   "status": "proved",
   "theorems": [
    "C16_read_char",
    "C16_ascii_mark_refuted"
   ],
   "note": "For every category assignment in which NUL is a control character and no ASCII character is a combining mark (both hold in Unicode); C16_ascii_mark_refuted shows the second condition is needed."
  },
  {
   "property": "C17",
   "status": "proved",
   "theorems": [
    "C17_fastukk_partition"
   ],
   "note": ""
  },
  {
   "property": "C18",
   "status": "proved",
   "theorems": [
    "C18_fastukk_matches"
   ],
   "note": ""
  },
  {
   "property": "C19",
   "status": "proved",
   "theorems": [
    "C19_fastukk_optimal"
   ],
   "note": ""
  },
  {
   "property": "C20",
   "status": "proved",
   "theorems": [
    "C20_fastukk_safe",
    "C20_fastukk_rounds"
   ],
   "note": ""
  },
  {
   "property": "C21",
   "status": "proved",
   "theorems": [
    "C21_synchronize"
   ],
   "note": ""
  },
  {
   "property": "C22",
   "status": "proved",
   "theorems": [
    "C22_not_extendable",
    "C22_nothing_left",
    "C22_longest_matched"
   ],
   "note": ""
  },
  {
   "property": "C23",
   "status": "proved",
   "theorems": [
    "C23_transpose"
   ],
   "note": ""
  },
  {
   "property": "C24",
   "status": "proved",
   "theorems": [
    "C24_longest_first",
    "C24_nothing_left"
   ],
   "note": ""
  },
  {
   "property": "C25",
   "status": "proved",
   "theorems": [
    "C25_figures",
    "C25_identical",
    "C25_last_code_point_refuted"
   ],
   "note": "For texts in which every character lies inside the class tables, i.e. without U+10FFFF; C25_last_code_point_refuted shows that U+10FFFF indexes the tables out of bounds."
  },
  {
   "property": "C26",
   "status": "proved",
   "theorems": [
    "C26_consistent",
    "C26_character_table",
    "C26_confusions",
    "C26_missed"
   ],
   "note": ""
  },
  {
   "property": "C27",
   "status": "proved",
   "theorems": [
    "C27_marks",
    "C27_operations"
   ],
   "note": ""
  },
  {
   "property": "C28",
   "status": "proved",
   "theorems": [
    "C28_key",
    "C28_table_keys",
    "C28_row"
   ],
   "note": ""
  },
  {
   "property": "C29",
   "status": "proved",
   "theorems": [
    "C29_round_trip",
    "C29_read_adds",
    "C29_accuracy",
    "C29_wide_figures_refuted"
   ],
   "note": "Figures below 10^8 as the property says; C29_wide_figures_refuted shows what happens beyond."
  },
  {
   "property": "C30",
   "status": "proved",
   "theorems": [
    "C30_total",
    "C30_order",
    "C30_grouping"
   ],
   "note": "Reports with figures below 10^8 (the width of a column); totals below 2^31 for the row order to be determined."
  },
  {
   "property": "C31",
   "status": "partial",
   "theorems": [
    "C31_accuracy_partial",
    "C31_class_table_refuted",
    "C31_editop_partial",
    "C31_move_length_refuted",
    "C31_words_partial",
    "C31_word_length_refuted"
   ],
   "note": "All three readers: rejection is characterised exactly, and the only undefined behaviour is an index outside the class tables (C31_class_table_refuted), outside the tables by word length (C31_word_length_refuted) or outside the table of moves (C31_move_length_refuted), all of which do happen, so the claim as stated is false of the code."
  },
  {
   "property": "C32",
   "status": "proved",
   "theorems": [
    "C32_class_name",
    "C32_equal_names",
    "C32_invalid_class",
    "C32_last_code_point_refuted"
   ],
   "note": ""
  },
  {
   "property": "C33",
   "status": "proved",
   "theorems": [
    "C33_lookup",
    "C33_unique_range",
    "C33_any_table"
   ],
   "note": ""
  },
  {
   "property": "C34",
   "status": "proved",
   "theorems": [
    "C34_partition",
    "C34_all_delivered"
   ],
   "note": ""
  },
  {
   "property": "C35",
   "status": "proved",
   "theorems": [
    "C35_boundaries",
    "C35_any_text",
    "C35_newline_refuted"
   ],
   "note": "UAX #29 boundaries for the texts the property names; C35_any_text says what the program does for every other text, and C35_newline_refuted shows the restriction is needed (an accent after a newline)."
  },
  {
   "property": "C36",
   "status": "proved",
   "theorems": [
    "C36_strings",
    "C36_words",
    "C36_no_nul",
    "C36_appends"
   ],
   "note": ""
  },
  {
   "property": "C37",
   "status": "proved",
   "theorems": [
    "C37_more_words",
    "C37_longest_common_subsequence",
    "C37_too_long",
    "C37_misrecognized",
    "C37_none_or_all"
   ],
   "note": "For correct texts with at most 65535 words shared with the generated text; otherwise the error 'text stream is too long' is proved."
  },
  {
   "property": "C38",
   "status": "proved",
   "theorems": [
    "C38_figures"
   ],
   "note": ""
  },
  {
   "property": "C39",
   "status": "proved",
   "theorems": [
    "C39_bounds",
    "C39_phrases"
   ],
   "note": ""
  },
  {
   "property": "C40",
   "status": "partial",
   "theorems": [
    "C40_long_words_refuted",
    "C40_length_in_bytes_refuted",
    "C40_short_ascii_words_partial"
   ],
   "note": "The claim is false of the code: any word of more than 50 bytes indexes the by-length table out of bounds (C40_long_words_refuted), and lengths are counted in bytes (C40_length_in_bytes_refuted). Proved for words of at most 50 ASCII characters; nothing else is missing."
  },
  {
   "property": "C41",
   "status": "proved",
   "theorems": [
    "C41_round_trip",
    "C41_read_adds",
    "C41_wordacc",
    "C41_total",
    "C41_order",
    "C41_grouping",
    "C41_long_words_refuted"
   ],
   "note": "Figures below 10^8 and words of at most 68 bytes, as the property says; C41_long_words_refuted shows that the limit is sharp."
  },
  {
   "property": "C42",
   "status": "proved",
   "theorems": [
    "C42_choice",
    "C42_more",
    "C42_stopwords",
    "C42_initialised_twice",
    "C42_not_initialised",
    "C42_unreadable",
    "C42_histories",
    "C42_default"
   ],
   "note": ""
  },
  {
   "property": "C43",
   "status": "proved",
   "theorems": [
    "C43_counts",
    "C43_script",
    "C43_report",
    "C43_no_correct_file"
   ],
   "note": ""
  },
  {
   "property": "C44",
   "status": "proved",
   "theorems": [
    "C44_moves",
    "C44_reportable"
   ],
   "note": ""
  },
  {
   "property": "C45",
   "status": "proved",
   "theorems": [
    "C45_round_trip",
    "C45_read_adds",
    "C45_total",
    "C45_order",
    "C45_grouping"
   ],
   "note": "For figures that are longs; partial sums must be longs too."
  },
  {
   "property": "C46",
   "status": "proved",
   "theorems": [
    "C46_curve",
    "C46_sum",
    "C46_cost",
    "C46_difference",
    "C46_recorded"
   ],
   "note": ""
  },
  {
   "property": "C47",
   "status": "proved",
   "theorems": [
    "C47_vote",
    "C47_unique",
    "C47_bounds",
    "C47_majority",
    "C47_agreement",
    "C47_program"
   ],
   "note": "C47_program is for votes without -O (all texts vote, in order); with -O the vote among those selected is in C61_selected. The number of votes is a C short, at most 16*9, so it cannot overflow."
  },
  {
   "property": "C48",
   "status": "proved",
   "theorems": [
    "C48_same_characters",
    "C48_copies"
   ],
   "note": "C48_copies gives the exact output including marks; C48_same_characters allows different marks in the copies. Without -O."
  },
  {
   "property": "C49",
   "status": "proved",
   "theorems": [
    "C49_fraction",
    "C49_options",
    "C49_voters"
   ],
   "note": "For option strings without NUL and 2..16 files, whether char is signed or not; without -O."
  },
  {
   "property": "C50",
   "status": "proved",
   "theorems": [
    "C50_keys",
    "C50_keys_five_refuted",
    "C50_option",
    "C50_report",
    "C50_unique",
    "C50_no_files",
    "C50_bad_file",
    "C50_totals",
    "C50_sequences"
   ],
   "note": "The program on any number of files: sequences do not run across files; each occurring sequence listed once, with exact counts, in both orders; totals are sums of the columns. The table key identifies the sequence for n <= 3 (C50_keys; false for five characters). Hypotheses: fewer than 2^31 sequences (the comparison routine narrows a long to int), Unicode data in which NUL is not graphic and combining marks are not ASCII. Hash-table order is a permutation oracle."
  },
  {
   "property": "C51",
   "status": "proved",
   "theorems": [
    "C51_together",
    "C51_report",
    "C51_unique",
    "C51_no_files",
    "C51_bad_file"
   ],
   "note": ""
  },
  {
   "property": "C52",
   "status": "proved",
   "theorems": [
    "C52_order",
    "C52_empty_page",
    "C52_area",
    "C52_exact",
    "C52_decreasing",
    "C52_accdist",
    "C52_wordaccdist",
    "C52_negative_missed_refuted",
    "C52_large_counts_refuted"
   ],
   "note": "IEEE binary64 arithmetic (Flocq), round to nearest even, no extended precision. C52_negative_missed_refuted: with negative missed the array is overrun; C52_large_counts_refuted: beyond 2^46 the double comparison can differ from the exact one. The programs: for reports written by accuracy / wordacc."
  },
  {
   "property": "C53",
   "status": "proved",
   "theorems": [
    "C53_interval",
    "C53_certain",
    "C53_accurate",
    "C53_accci",
    "C53_wordaccci"
   ],
   "note": "IEEE binary64 arithmetic (Flocq). Non-negative figures, totals at most 2^63, at most 2^31 pages: no division by zero, no NaN or infinity, 0 <= lower <= upper <= 100. When all pages are perfect (or all missed) the interval is exactly [100,100] ([0,0]). Programs for reports written by accuracy / wordacc. C53_accurate: rounding error of the ends at most 1/1000 (at most 10000 pages, 2^53 characters, accuracies between -100% and 100%)."
  },
  {
   "property": "C54",
   "status": "partial",
   "theorems": [
    "C54_program",
    "C54_words_left_partial",
    "C54_repeated_refuted"
   ],
   "note": "Proved for stopword files that repeat no word (C54_words_left_partial), and in general with the figures of a repeated word subtracted each time (C54_program). As stated it is false: C54_repeated_refuted. The misses left are those of the other words when the report total of misses is the sum over its words, as in reports of wordacc."
  },
  {
   "property": "C55",
   "status": "proved",
   "theorems": [
    "C55_program",
    "C55_totals",
    "C55_last_refuted"
   ],
   "note": "For reports written by accuracy and group files without U+10FFFF, for which the table has no entry (C55_last_refuted). A character repeated in the group file is listed and counted each time."
  },
  {
   "property": "C56",
   "status": "partial",
   "theorems": [
    "C56_parse_partial",
    "C56_accepted",
    "C56_many_refuted"
   ],
   "note": "For command lines of at most 32766 arguments and option tables as documented (distinct non-NUL characters, each a flag or an option with a value): complete description of the result, and acceptance of every well-formed command line. False for more arguments: C56_many_refuted (counters of type short)."
  },
  {
   "property": "C57",
   "status": "partial",
   "theorems": [
    "C57_base_partial",
    "C57_unique",
    "C57_long_refuted",
    "C57_longer_refuted"
   ],
   "note": "For paths of at most 32768 characters. False for longer ones: C57_long_refuted (pointer before the string), C57_longer_refuted (slashes overlooked)."
  },
  {
   "property": "C58",
   "status": "partial",
   "theorems": [
    "C58_unique",
    "C58_fresh",
    "C58_removed_partial",
    "C58_many_refuted",
    "C58_more_refuted",
    "C58_long_name_refuted"
   ],
   "note": "Names are unique for up to 32767 calls and removed at exit for up to 32766, at every interrupt point. False beyond: C58_many_refuted (exit never ends), C58_more_refuted (nothing removed); C58_long_name_refuted (program name of over 92 characters overruns the buffer). Files outside the process do not interfere."
  },
  {
   "property": "C59",
   "status": "partial",
   "theorems": [
    "C59_output",
    "C59_errors",
    "C59_determined_partial",
    "C59_braces_refuted",
    "C59_transposed"
   ],
   "note": "C59_output: the output is the printed form of an alignment whose pieces make up each text (all options; for two texts it is optimal without -H, and with -H no difference has a character on both sides). C59_transposed: option -T. C59_determined_partial: equal outputs show equal texts if no text or file name contains an opening brace. Without that condition the claim is false: C59_braces_refuted. Marked characters with six-digit codes are excluded (C15)."
  },
  {
   "property": "C60",
   "status": "proved",
   "theorems": [
    "C60_greedy",
    "C60_unique"
   ],
   "note": ""
  },
  {
   "property": "C61",
   "status": "proved",
   "theorems": [
    "C61_float",
    "C61_all_vote",
    "C61_options",
    "C61_selected",
    "C61_nearest",
    "C61_unique",
    "C61_agreement",
    "C61_voters"
   ],
   "note": "Texts shorter than 2^31 characters; medians and distances are exact numbers there. C61_float: with float medians and double distances (binary32, binary64), as in the C code, the output is the same for texts shorter than 2^22 characters."
  },
  {
   "property": "C62",
   "status": "proved",
   "theorems": [
    "C62_accuracy",
    "C62_ends"
   ],
   "note": "accuracy_main (run_main, files as a map, read_text, accuracy_data, write_accrpt). C62_accuracy: the report, its place and its first figures; C62_ends: error message otherwise, for well-formed headers and correct texts without U+10FFFF."
  },
  {
   "property": "C63",
   "status": "proved",
   "theorems": [
    "C63_wordacc"
   ],
   "note": "wordacc_main. Words of at most 50 bytes (longer ones overrun a buffer, see C40), fewer than 10^8 words; the words are those of the segmentation of C35/C36. C63_ex: a run with -S."
  },
  {
   "property": "C64",
   "status": "proved",
   "theorems": [
    "C64_accsum",
    "C64_accdist",
    "C64_accci",
    "C64_wordaccsum",
    "C64_wordaccdist",
    "C64_wordaccci",
    "C64_nonstopacc",
    "C64_wordfreq",
    "C64_editopsum",
    "C64_editopcost",
    "C64_groupacc",
    "C64_editop",
    "C64_ngram",
    "C64_synctext",
    "C64_vote",
    "C64_missing",
    "C64_read_only",
    "C64_writes"
   ],
   "note": "Each xxx_main is xxx of the contents of the files, whose meaning is the subject of the claims on that program (C25 to C61): accuracy C62, wordacc C63, the others here. C64_missing: input files exist; C64_read_only, C64_writes: no other file changes. With -D editop also prints the trace of C66. A run that fails has no file state in the model."
  },
  {
   "property": "C65",
   "status": "proved",
   "theorems": [
    "C65_accuracy_accsum",
    "C65_wordacc_wordaccsum"
   ],
   "note": "Runs as in C62 and C63 (default stopwords), one after the other on the files the last one left. C65_ex: two pages."
  },
  {
   "property": "C66",
   "status": "proved",
   "theorems": [
    "C66_silent",
    "C66_trace",
    "C66_lines"
   ],
   "note": "C66_trace with C66_silent: the counts with and without -D, and the printed text; TraceSpec.trace says which lines there are; C66_lines: their number, the total of the lengths, the last line. C64_editop connects it with the program. C66_ex: 'cab' for 'abc'."
  },
  {
   "property": "C67",
   "status": "proved",
   "theorems": [
    "C67_nearest",
    "C67_monotone",
    "C67_perfect",
    "C67_imperfect",
    "C67_invisible_error",
    "C67_double",
    "C67_columns",
    "C67_accuracy",
    "C67_wordacc",
    "C67_program"
   ],
   "note": "binary64 arithmetic (Flocq); printf prints the decimal nearest to the exact value of the double. C67_columns: the assumption pct_ok of the theorems on reports holds of it. C67_program composes with C62 for texts without '~'. C67_invisible_error: one error in 20001 still shows 100.00. C67_double: bounds of confidence intervals."
  },
  {
   "property": "C68",
   "status": "proved",
   "theorems": [
    "C68_same",
    "C68_fail",
    "C68_read_only",
    "C68_interrupted",
    "C68_reads"
   ],
   "note": "MainIoModel gives the actions of each main in order; C68_same: its outcome and final state are those of MainModel for all command lines. Stated for utf8proc lower-casing scalar values to scalar values. What is printed with -D before the report is not part of the report."
  },
  {
   "property": "C69",
   "status": "proved",
   "theorems": [
    "C69_editop",
    "C69_ngram",
    "C69_wordfreq",
    "C69_synctext",
    "C69_synctext_transposed",
    "C69_vote"
   ],
   "note": "Composition of C64 with C50, C51, C59, C61, C43, C60 and C66, with conclusions in terms of the texts and the output only (MainTextSpec). C69_ex: files and command lines that meet the hypotheses, and the output of editop and vote on them."
  },
  {
   "property": "C70",
   "status": "proved",
   "theorems": [
    "C70_memory",
    "C70_accuracy",
    "C70_wordacc",
    "C70_wordfreq",
    "C70_ngram",
    "C70_synctext",
    "C70_editop",
    "C70_groupacc",
    "C70_nonstopacc",
    "C70_vote",
    "C70_accsum",
    "C70_wordaccsum"
   ],
   "note": "Relational: two runs, on two systems. C70_memory: nine mains are equal as functions for any two contents of the local buffers. The others: same_end (ReproSpec.v), the same error or the same printed text and the same report. C70_ex: two systems with different bytes and the same texts, different memory, order and signedness."
  },
  {
   "property": "C71",
   "status": "proved",
   "theorems": [
    "C71_confusions",
    "C71_terms",
    "C71_totals",
    "C71_ngrams",
    "C71_votes",
    "C71_stopwords",
    "C71_order",
    "C71_words"
   ],
   "note": "On the linked lists of TableModel, with an allocator that may fail. contains and total_for in ClientSpec.v. C71_confusions, terms, ngrams, votes, stopwords, words: the tables of the list models (AccModel, WacModel, NgramModel, VoteSelModel, StopModel, LcsModel) are what the pointer structures contain; C71_totals states the contents without the model; C71_order: the array meets the hypothesis on the order of a table used elsewhere."
  },
  {
   "property": "C72",
   "status": "proved",
   "theorems": [
    "C72_defined",
    "C72_zero",
    "C72_symmetric",
    "C72_triangle",
    "C72_bounds",
    "C72_one_edit",
    "C72_parts",
    "C72_common",
    "C72_program",
    "C72_words",
    "C72_reversed",
    "C72_words_reversed"
   ],
   "note": "Relates two to four runs. errors_between, misses_between, one_edit and accuracy_prints in MetricSpec.v. C72_program is about the printed reports of the program on files."
  },
  {
   "property": "C73",
   "status": "proved",
   "theorems": [
    "C73_read_text",
    "C73_free_text",
    "C73_ngram",
    "C73_find_words",
    "C73_free_words",
    "C73_wordfreq",
    "C73_shortage_refuted"
   ],
   "note": "Allocated and freed blocks explicit: every access is checked to be to an allocated block (UB otherwise). holds_text, holds_words, holds_terms and others_unchanged in MemTextSpec.v and MemWordSpec.v. C73_shortage_refuted: without memory append_word writes through NULL; the theorems list this outcome (UB \"access through NULL\") beside the message."
  },
  {
   "property": "C74",
   "status": "proved",
   "theorems": [
    "C74_accdist",
    "C74_wordaccdist",
    "C74_accci",
    "C74_wordaccci",
    "C74_groupacc",
    "C74_nonstopacc"
   ],
   "note": "Composes C62/C63 with C52-C55 over the reports left in the file system. Specification in PipeSpec.v (aligned, group_table, word_curve) and DistSpec/CiSpec, in terms of the texts and words of the pages only. nonstopacc: the given words are all different (see C54 for repeated ones). accci: interval as in C53_accurate."
  },
  {
   "property": "C75",
   "status": "proved",
   "theorems": [
    "C75_shown",
    "C75_one_form",
    "C75_unencodable",
    "C75_distinct",
    "C75_reports"
   ],
   "note": "ShowSpec.v classifies by the major Unicode categories, independently of is_graphic/is_combining. C75_reports ties the function display used by the specifications of the reports to it. Distinctness for Unicode scalar values and a data base where no ASCII character is a combining mark (marks_wide)."
  },
  {
   "property": "C76",
   "status": "proved",
   "theorems": [
    "C76_editopsum",
    "C76_editopcost",
    "C76_difference"
   ],
   "note": "Composes C69/C64 with C45 and C46 over the files left by editop. EditPipeSpec.v: edit_of (an edit of two texts, moves as in C60), all_edits, cost, cost_listing."
  },
  {
   "property": "C77",
   "status": "proved",
   "theorems": [
    "C77_string",
    "C77_valid",
    "C77_file"
   ],
   "note": "closed under the global context"
  },
  {
   "property": "C78",
   "status": "proved",
   "theorems": [
    "C78_synchronize",
    "C78_number_of_streams",
    "C78_fastukk",
    "C78_transpose",
    "C78_repeated"
   ],
   "note": "MemSyncModel.v is sync.c on linked lists with allocation and release; the theorems relate it to the models of C17-C24 (synchronize, fastukk_sync, transpose_sync). The arrays made by list_in_array (C02) are not in this memory."
  },
  {
   "property": "C79",
   "status": "proved",
   "theorems": [
    "C79_accuracy",
    "C79_wordacc",
    "C79_editop",
    "C79_exact",
    "C79_lines",
    "C79_wide_refuted"
   ],
   "note": "LayoutSpec.v describes each report as a list of lines with parts in columns, independently of the printing functions. Figures below 100000000; C79_wide_refuted shows that the bound is needed. C79_exact and C79_lines: the description determines the file."
  },
  {
   "property": "C80",
   "status": "proved",
   "theorems": [
    "C80_operations",
    "C80_first_list_refuted"
   ],
   "note": "MemEditModel.v is editop.c on the memory of C78; related to the model on sequences of C43 and C44. C80_first_list_refuted: the first list keeps addresses of numbers that have been freed (editop does not use them)."
  },
  {
   "property": "C81",
   "status": "proved",
   "theorems": [
    "C81_sort",
    "C81_sorted_input",
    "C81_bounded_stack_refuted",
    "C81_synchronize",
    "C81_property"
   ],
   "note": "DepthModel.v has the three recursive functions of the program with the number of active calls beside the result. C81_sorted_input and C81_bounded_stack_refuted: sort needs stack proportional to the number of elements, for elements already in order."
  },
  {
   "property": "C82",
   "status": "proved",
   "theorems": [
    "C82_ends",
    "C82_missing",
    "C82_uncreatable",
    "C82_reports",
    "C82_ngram_value",
    "C82_vote_value",
    "C82_status"
   ],
   "note": "ExitModel.v has the seventeen programs with messages and exit status. C82_ends compares them with the programs of MainModel.v (C64): how each way of ending shows. C82_missing and C82_uncreatable compare a run with one in a system where one file is missing or cannot be written. C82_reports: malformed reports. C82_ngram_value and C82_vote_value: values of options. C82_status: what the status tells."
  },
  {
   "property": "C83",
   "status": "proved",
   "theorems": [
    "C83_messages",
    "C83_utf8",
    "C83_one_message"
   ],
   "note": "C83_messages: for each of the seventeen processes of ExitModel.v, status 1 implies one of the listed reasons (MessageSpec.v), for the list of files the process has read. C83_utf8: for a text without a header the message is determined by the bytes, and C83_one_message: exactly the byte strings that are not UTF-8 have one."
  },
  {
   "property": "C84",
   "status": "proved",
   "theorems": [
    "C84_accuracy",
    "C84_wordacc",
    "C84_wordfreq",
    "C84_ngram",
    "C84_editop",
    "C84_accsum",
    "C84_editopsum",
    "C84_editopcost",
    "C84_reports",
    "C84_overflow_refuted",
    "C84_wordaccsum",
    "C84_accdist",
    "C84_wordaccdist",
    "C84_accci",
    "C84_wordaccci",
    "C84_groupacc",
    "C84_nonstopacc",
    "C84_word_reports",
    "C84_word_overflow_refuted"
   ],
   "note": "C84_accuracy, C84_wordacc, C84_wordfreq, C84_ngram, C84_editop, C84_accsum, C84_editopsum, C84_editopcost, C84_wordaccsum, C84_accdist, C84_wordaccdist, C84_accci, C84_wordaccci, C84_groupacc, C84_nonstopacc: the model with checked 64-bit counters equals the model with unbounded ones. C84_reports, C84_word_reports: for reports of any contents equal or UB. C84_overflow_refuted, C84_word_overflow_refuted: without the bounds two reports of 2^63-1 and 1 insertions, or words, overflow. Sizes of buffers and int or short counters are the subject of other properties; vote and synctext, which print no counters, are not given a checked model."
  },
  {
   "property": "C85",
   "status": "proved",
   "theorems": [
    "C85_cut",
    "C85_lines",
    "C85_file",
    "C85_wordfreq",
    "C85_mark_refuted"
   ],
   "note": "C85_file and C85_wordfreq assume that neither part starts with the title of a report header, that its text starts with no combining mark, and that lower-casing keeps spacing and yields characters. C85_mark_refuted shows that the condition on combining marks is needed."
  },
  {
   "property": "C86",
   "status": "proved",
   "theorems": [
    "C86_accuracy",
    "C86_correct",
    "C86_more",
    "C86_ngram",
    "C86_read",
    "C86_words",
    "C86_wordfreq",
    "C86_editop",
    "C86_accuracy_files"
   ],
   "note": "Files are UTF-8 texts without a title line. For ngram the theorem is about the table before it is sorted and printed."
  },
  {
   "property": "C87",
   "status": "proved",
   "theorems": [
    "C87_read",
    "C87_words",
    "C87_stopwords",
    "C87_wordfreq",
    "C87_synctext"
   ],
   "note": "Where a header is looked for, neither file starts with its title. case_ok names the facts about tolower that are used; case_uc_ok shows them of ASCII lower-casing."
  },
  {
   "property": "C88",
   "status": "proved",
   "theorems": [
    "C88_synchronize",
    "C88_transpose",
    "C88_fastukk",
    "C88_editop",
    "C88_accuracy"
   ],
   "note": "For accuracy both runs are assumed to yield figures (C25 says when); the figures of single classes and confusions depend on the characters, of course."
  },
  {
   "property": "C89",
   "status": "proved",
   "theorems": [
    "C89_count_erased",
    "C89_work",
    "C89_equal_texts"
   ],
   "note": "The counts are those of a copy of the model that carries a counter; C89_count_erased proves that without the counter it is the model."
  },
  {
   "property": "C90",
   "status": "proved",
   "theorems": [
    "C90_together",
    "C90_all_but_one",
    "C90_scattered_refuted",
    "C90_two_of_three"
   ],
   "note": "The statement claims agreement of a scattered majority nowhere; C90_scattered_refuted shows that it is false. Option -O is not covered."
  },
  {
   "property": "C91",
   "status": "proved",
   "theorems": [
    "C91_bags",
    "C91_any_order",
    "C91_only_moves",
    "C91_exchanged",
    "C91_moves_exchanged_refuted",
    "C91_accuracy",
    "C91_reordered",
    "C91_reordered_wildcard_refuted"
   ],
   "note": "The symmetry of the number of moves is not claimed; C91_moves_exchanged_refuted shows that it is false."
  },
  {
   "property": "C92",
   "status": "proved",
   "theorems": [
    "C92_sort_erased",
    "C92_sort",
    "C92_sort_sorted",
    "C92_sort_equal",
    "C92_sort_n_log_n_refuted",
    "C92_words_erased",
    "C92_words",
    "C92_words_equal"
   ],
   "note": "The statement claims no bound of the form c n log n; C92_sort_n_log_n_refuted shows that there is none."
  },
  {
   "property": "C93",
   "status": "proved",
   "theorems": [
    "C93_words",
    "C93_words_any",
    "C93_figures",
    "C93_programs",
    "C93_three_needed",
    "C93_five_needed"
   ],
   "note": "For correct texts without '~' (with '~', accuracy reports fewer errors than there are, see C25)."
  },
  {
   "property": "C94",
   "status": "proved",
   "theorems": [
    "C94_read",
    "C94_programs",
    "C94_not_layout"
   ],
   "note": "For files without a header."
  },
  {
   "property": "C95",
   "status": "proved",
   "theorems": [
    "C95_words",
    "C95_sequences",
    "C95_wordfreq",
    "C95_ngram",
    "C95_sequences_needed"
   ],
   "note": ""
  },
  {
   "property": "C96",
   "status": "proved",
   "theorems": [
    "C96_shown",
    "C96_at_least",
    "C96_heuristic"
   ],
   "note": "the first text must not contain U+10FFFF, which accuracy cannot tabulate (C25)"
  },
  {
   "property": "C97",
   "status": "proved",
   "theorems": [
    "C97_characters",
    "C97_words",
    "C97_balance",
    "C97_bound_program",
    "C97_bound",
    "C97_bound_sharp",
    "C97_perfect",
    "C97_nothing_to_do",
    "C97_wildcard_refuted",
    "C97_perfect_words"
   ],
   "note": "files of fewer than 2^31 characters or words, words of at most 50 bytes (C40)"
  },
  {
   "property": "C98",
   "status": "proved",
   "theorems": [
    "C98_program",
    "C98_errors",
    "C98_filled",
    "C98_one_edit",
    "C98_triangle",
    "C98_masked",
    "C98_rejects",
    "C98_perfect",
    "C98_parts",
    "C98_common"
   ],
   "note": ""
  },
  {
   "property": "C99",
   "status": "proved",
   "theorems": [
    "C99_chain",
    "C99_rows",
    "C99_together"
   ],
   "note": ""
  }
 ]
}
