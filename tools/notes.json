{
 "C07": {
  "status": "proved",
  "note": "The comparison routines subtract longs and return int, so the order is proved for counts below 2^31; C07_large_counts_refuted shows it fails beyond."
 },
 "C13": {
  "status": "proved",
  "note": "Header lines of at most 98 bytes; C13_long_line_refuted shows that the end of a longer line can be taken for a divider."
 },
 "C15": {
  "status": "partial",
  "note": "The claim is false of the code: a suspect U+10FFFE/U+10FFFF needs STRING_SIZE+1 bytes (C15_overflow_refuted). Proved for every other case; nothing else is missing."
 },
 "C16": {
  "status": "proved",
  "note": "For every category assignment in which NUL is a control character and no ASCII character is a combining mark (both hold in Unicode); C16_ascii_mark_refuted shows the second condition is needed."
 },
 "C25": {
  "status": "proved",
  "note": "For texts in which every character lies inside the class tables, i.e. without U+10FFFF; C25_last_code_point_refuted shows that U+10FFFF indexes the tables out of bounds."
 },
 "C29": {
  "status": "proved",
  "note": "Figures below 10^8 as the property says; C29_wide_figures_refuted shows what happens beyond."
 },
 "C30": {
  "status": "proved",
  "note": "Reports with figures below 10^8 (the width of a column); totals below 2^31 for the row order to be determined."
 },
 "C31": {
  "status": "partial",
  "note": "All three readers: rejection is characterised exactly, and the only undefined behaviour is an index outside the class tables (C31_class_table_refuted), outside the tables by word length (C31_word_length_refuted) or outside the table of moves (C31_move_length_refuted), all of which do happen, so the claim as stated is false of the code."
 },
 "C37": {
  "status": "proved",
  "note": "For correct texts with at most 65535 words shared with the generated text; otherwise the error 'text stream is too long' is proved."
 },
 "C40": {
  "status": "partial",
  "note": "The claim is false of the code: any word of more than 50 bytes indexes the by-length table out of bounds (C40_long_words_refuted), and lengths are counted in bytes (C40_length_in_bytes_refuted). Proved for words of at most 50 ASCII characters; nothing else is missing."
 },
 "C41": {
  "status": "proved",
  "note": "Figures below 10^8 and words of at most 68 bytes, as the property says; C41_long_words_refuted shows that the limit is sharp."
 },
 "C45": {
  "status": "proved",
  "note": "For figures that are longs; partial sums must be longs too."
 },
 "C35": {
  "status": "proved",
  "note": "UAX #29 boundaries for the texts the property names; C35_any_text says what the program does for every other text, and C35_newline_refuted shows the restriction is needed (an accent after a newline)."
 },
 "C47": {
  "status": "proved",
  "note": "C47_program is for votes without -O (all texts vote, in order); with -O the vote among those selected is in C61_selected. The number of votes is a C short, at most 16*9, so it cannot overflow."
 },
 "C48": {
  "status": "proved",
  "note": "C48_copies gives the exact output including marks; C48_same_characters allows different marks in the copies. Without -O."
 },
 "C49": {
  "status": "proved",
  "note": "For option strings without NUL and 2..16 files, whether char is signed or not; without -O."
 },
 "C50": {
  "status": "proved",
  "note": "The program on any number of files: sequences do not run across files; each occurring sequence listed once, with exact counts, in both orders; totals are sums of the columns. The table key identifies the sequence for n <= 3 (C50_keys; false for five characters). Hypotheses: fewer than 2^31 sequences (the comparison routine narrows a long to int), Unicode data in which NUL is not graphic and combining marks are not ASCII. Hash-table order is a permutation oracle."
 },
 "C52": {
  "status": "proved",
  "note": "IEEE binary64 arithmetic (Flocq), round to nearest even, no extended precision. C52_negative_missed_refuted: with negative missed the array is overrun; C52_large_counts_refuted: beyond 2^46 the double comparison can differ from the exact one. The programs: for reports written by accuracy / wordacc."
 },
 "C53": {
  "status": "proved",
  "note": "IEEE binary64 arithmetic (Flocq). Non-negative figures, totals at most 2^63, at most 2^31 pages: no division by zero, no NaN or infinity, 0 <= lower <= upper <= 100. When all pages are perfect (or all missed) the interval is exactly [100,100] ([0,0]). Programs for reports written by accuracy / wordacc. C53_accurate: rounding error of the ends at most 1/1000 (at most 10000 pages, 2^53 characters, accuracies between -100% and 100%)."
 },
 "C54": {
  "status": "partial",
  "note": "Proved for stopword files that repeat no word (C54_words_left_partial), and in general with the figures of a repeated word subtracted each time (C54_program). As stated it is false: C54_repeated_refuted. The misses left are those of the other words when the report total of misses is the sum over its words, as in reports of wordacc."
 },
 "C55": {
  "status": "proved",
  "note": "For reports written by accuracy and group files without U+10FFFF, for which the table has no entry (C55_last_refuted). A character repeated in the group file is listed and counted each time."
 },
 "C56": {
  "status": "partial",
  "note": "For command lines of at most 32766 arguments and option tables as documented (distinct non-NUL characters, each a flag or an option with a value): complete description of the result, and acceptance of every well-formed command line. False for more arguments: C56_many_refuted (counters of type short)."
 },
 "C57": {
  "status": "partial",
  "note": "For paths of at most 32768 characters. False for longer ones: C57_long_refuted (pointer before the string), C57_longer_refuted (slashes overlooked)."
 },
 "C58": {
  "status": "partial",
  "note": "Names are unique for up to 32767 calls and removed at exit for up to 32766, at every interrupt point. False beyond: C58_many_refuted (exit never ends), C58_more_refuted (nothing removed); C58_long_name_refuted (program name of over 92 characters overruns the buffer). Files outside the process do not interfere."
 },
 "C59": {
  "status": "partial",
  "note": "C59_output: the output is the printed form of an alignment whose pieces make up each text (all options; for two texts it is optimal without -H, and with -H no difference has a character on both sides). C59_transposed: option -T. C59_determined_partial: equal outputs show equal texts if no text or file name contains an opening brace. Without that condition the claim is false: C59_braces_refuted. Marked characters with six-digit codes are excluded (C15)."
 },
 "C61": {
  "status": "proved",
  "note": "Texts shorter than 2^31 characters; medians and distances are exact numbers there. C61_float: with float medians and double distances (binary32, binary64), as in the C code, the output is the same for texts shorter than 2^22 characters."
 },
 "C62": {
  "status": "proved",
  "note": "accuracy_main (run_main, files as a map, read_text, accuracy_data, write_accrpt). C62_accuracy: the report, its place and its first figures; C62_ends: error message otherwise, for well-formed headers and correct texts without U+10FFFF."
 },
 "C63": {
  "status": "proved",
  "note": "wordacc_main. Words of at most 50 bytes (longer ones overrun a buffer, see C40), fewer than 10^8 words; the words are those of the segmentation of C35/C36. C63_ex: a run with -S."
 },
 "C64": {
  "status": "proved",
  "note": "Each xxx_main is xxx of the contents of the files, whose meaning is the subject of the claims on that program (C25 to C61): accuracy C62, wordacc C63, the others here. C64_missing: input files exist; C64_read_only, C64_writes: no other file changes. With -D editop also prints the trace of C66. A run that fails has no file state in the model."
 },
 "C65": {
  "status": "proved",
  "note": "Runs as in C62 and C63 (default stopwords), one after the other on the files the last one left. C65_ex: two pages."
 },
 "C66": {
  "status": "proved",
  "note": "C66_trace with C66_silent: the counts with and without -D, and the printed text; TraceSpec.trace says which lines there are; C66_lines: their number, the total of the lengths, the last line. C64_editop connects it with the program. C66_ex: 'cab' for 'abc'."
 },
 "C67": {
  "status": "proved",
  "note": "binary64 arithmetic (Flocq); printf prints the decimal nearest to the exact value of the double. C67_columns: the assumption pct_ok of the theorems on reports holds of it. C67_program composes with C62 for texts without '~'. C67_invisible_error: one error in 20001 still shows 100.00. C67_double: bounds of confidence intervals."
 },
 "C68": {
  "status": "proved",
  "note": "MainIoModel gives the actions of each main in order; C68_same: its outcome and final state are those of MainModel for all command lines. Stated for utf8proc lower-casing scalar values to scalar values. What is printed with -D before the report is not part of the report."
 },
 "C69": {
  "status": "proved",
  "note": "Composition of C64 with C50, C51, C59, C61, C43, C60 and C66, with conclusions in terms of the texts and the output only (MainTextSpec). C69_ex: files and command lines that meet the hypotheses, and the output of editop and vote on them."
 },
 "C70": {
  "status": "proved",
  "note": "Relational: two runs, on two systems. C70_memory: nine mains are equal as functions for any two contents of the local buffers. The others: same_end (ReproSpec.v), the same error or the same printed text and the same report. C70_ex: two systems with different bytes and the same texts, different memory, order and signedness."
 },
 "C71": {
  "status": "proved",
  "note": "On the linked lists of TableModel, with an allocator that may fail. contains and total_for in ClientSpec.v. C71_confusions, terms, ngrams, votes, stopwords, words: the tables of the list models (AccModel, WacModel, NgramModel, VoteSelModel, StopModel, LcsModel) are what the pointer structures contain; C71_totals states the contents without the model; C71_order: the array meets the hypothesis on the order of a table used elsewhere."
 },
 "C72": {
  "status": "proved",
  "note": "Relates two to four runs. errors_between, misses_between, one_edit and accuracy_prints in MetricSpec.v. C72_program is about the printed reports of the program on files."
 },
 "C73": {
  "status": "proved",
  "note": "Allocated and freed blocks explicit: every access is checked to be to an allocated block (UB otherwise). holds_text, holds_words, holds_terms and others_unchanged in MemTextSpec.v and MemWordSpec.v. C73_shortage_refuted: without memory append_word writes through NULL; the theorems list this outcome (UB \"access through NULL\") beside the message."
 },
 "C74": {
  "status": "proved",
  "note": "Composes C62/C63 with C52-C55 over the reports left in the file system. Specification in PipeSpec.v (aligned, group_table, word_curve) and DistSpec/CiSpec, in terms of the texts and words of the pages only. nonstopacc: the given words are all different (see C54 for repeated ones). accci: interval as in C53_accurate."
 },
 "C75": {
  "status": "proved",
  "note": "ShowSpec.v classifies by the major Unicode categories, independently of is_graphic/is_combining. C75_reports ties the function display used by the specifications of the reports to it. Distinctness for Unicode scalar values and a data base where no ASCII character is a combining mark (marks_wide)."
 },
 "C76": {
  "status": "proved",
  "note": "Composes C69/C64 with C45 and C46 over the files left by editop. EditPipeSpec.v: edit_of (an edit of two texts, moves as in C60), all_edits, cost, cost_listing."
 },
 "C77": {
  "status": "proved",
  "note": "closed under the global context"
 },
 "C78": {
  "status": "proved",
  "note": "MemSyncModel.v is sync.c on linked lists with allocation and release; the theorems relate it to the models of C17-C24 (synchronize, fastukk_sync, transpose_sync). The arrays made by list_in_array (C02) are not in this memory."
 },
 "C79": {
  "status": "proved",
  "note": "LayoutSpec.v describes each report as a list of lines with parts in columns, independently of the printing functions. Figures below 100000000; C79_wide_refuted shows that the bound is needed. C79_exact and C79_lines: the description determines the file."
 },
 "C80": {
  "status": "proved",
  "note": "MemEditModel.v is editop.c on the memory of C78; related to the model on sequences of C43 and C44. C80_first_list_refuted: the first list keeps addresses of numbers that have been freed (editop does not use them)."
 },
 "C81": {
  "status": "proved",
  "note": "DepthModel.v has the three recursive functions of the program with the number of active calls beside the result. C81_sorted_input and C81_bounded_stack_refuted: sort needs stack proportional to the number of elements, for elements already in order."
 },
 "C82": {
  "status": "proved",
  "note": "ExitModel.v has the seventeen programs with messages and exit status. C82_ends compares them with the programs of MainModel.v (C64): how each way of ending shows. C82_missing and C82_uncreatable compare a run with one in a system where one file is missing or cannot be written. C82_reports: malformed reports. C82_ngram_value and C82_vote_value: values of options. C82_status: what the status tells."
 },
 "C83": {
  "status": "proved",
  "note": "C83_messages: for each of the seventeen processes of ExitModel.v, status 1 implies one of the listed reasons (MessageSpec.v), for the list of files the process has read. C83_utf8: for a text without a header the message is determined by the bytes, and C83_one_message: exactly the byte strings that are not UTF-8 have one."
 },
 "C84": {
  "status": "proved",
  "note": "C84_accuracy, C84_wordacc, C84_wordfreq, C84_ngram, C84_editop, C84_accsum, C84_editopsum, C84_editopcost, C84_wordaccsum, C84_accdist, C84_wordaccdist, C84_accci, C84_wordaccci, C84_groupacc, C84_nonstopacc: the model with checked 64-bit counters equals the model with unbounded ones. C84_reports, C84_word_reports: for reports of any contents equal or UB. C84_overflow_refuted, C84_word_overflow_refuted: without the bounds two reports of 2^63-1 and 1 insertions, or words, overflow. Sizes of buffers and int or short counters are the subject of other properties; vote and synctext, which print no counters, are not given a checked model."
 },
 "C85": {
  "status": "proved",
  "note": "C85_file and C85_wordfreq assume that neither part starts with the title of a report header, that its text starts with no combining mark, and that lower-casing keeps spacing and yields characters. C85_mark_refuted shows that the condition on combining marks is needed."
 },
 "C86": {
  "status": "proved",
  "note": "Files are UTF-8 texts without a title line. For ngram the theorem is about the table before it is sorted and printed."
 },
 "C87": {
  "status": "proved",
  "note": "Where a header is looked for, neither file starts with its title. case_ok names the facts about tolower that are used; case_uc_ok shows them of ASCII lower-casing."
 },
 "C88": {
  "status": "proved",
  "note": "For accuracy both runs are assumed to yield figures (C25 says when); the figures of single classes and confusions depend on the characters, of course."
 },
 "C89": {
  "status": "proved",
  "note": "The counts are those of a copy of the model that carries a counter; C89_count_erased proves that without the counter it is the model."
 },
 "C90": {
  "status": "proved",
  "note": "The statement claims agreement of a scattered majority nowhere; C90_scattered_refuted shows that it is false. Option -O is not covered."
 },
 "C91": {
  "status": "proved",
  "note": "The symmetry of the number of moves is not claimed; C91_moves_exchanged_refuted shows that it is false."
 },
 "C92": {
  "status": "proved",
  "note": "The statement claims no bound of the form c n log n; C92_sort_n_log_n_refuted shows that there is none."
 },
 "C93": {
  "status": "proved",
  "note": "For correct texts without '~' (with '~', accuracy reports fewer errors than there are, see C25)."
 },
 "C94": {
  "status": "proved",
  "note": "For files without a header."
 },
 "C95": {
  "status": "proved",
  "note": ""
 },
 "C96": {
  "status": "proved",
  "note": "the first text must not contain U+10FFFF, which accuracy cannot tabulate (C25)"
 },
 "C97": {
  "status": "proved",
  "note": "files of fewer than 2^31 characters or words, words of at most 50 bytes (C40)"
 },
 "C98": {
  "status": "proved",
  "note": ""
 },
 "C99": {
  "status": "proved",
  "note": ""
 }
}