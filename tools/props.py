import json
P=[]
def p(title, statement, quantifier, why, anchors):
    P.append(dict(id="C%02d"%(len(P)+1), title=title, statement=statement, quantifier=quantifier, why_tests_cant=why, anchors=anchors))

# ---------------------------------------------------------------- containers
p("Linked lists behave as sequences",
  "After any history of list_initialize / list_insert_first / list_insert_last / list_insert_before / list_insert_after / list_remove calls (inserted items not already in the list; reference and removed items in the list), walking 'next' from list->first visits exactly the items of the abstract sequence obtained by the same operations on a plain sequence, walking 'prev' from list->last visits its reverse, and list->count is its length. No call dereferences NULL.",
  "every sequence of list operations whose item/reference arguments satisfy the documented membership conditions, and every initial heap",
  "pointer-link corruption only shows on particular interleavings of insert/remove at head, tail and middle; the space of histories is unbounded",
  ["src/list.c: list_insert, list_insert_first, list_insert_last, list_insert_before, list_insert_after, list_remove", "src/list.h"])
p("The array view of a list is never stale",
  "After list_in_array on a list reached by any history of operations (including earlier list_in_array calls), list->array holds exactly the current items in list order (or is NULL when the list is empty); any structural change discards the old array, so a non-NULL array always describes the current contents.",
  "every interleaving of list_in_array with insertions and removals",
  "staleness requires a specific interleaving of view creation and mutation; all interleavings are unbounded",
  ["src/list.c: list_in_array, free_array, list_insert, list_remove"])
p("Emptying a list hands every item to the callback exactly once",
  "list_empty calls process_item once for each item, in list order, never touches an item after it has been handed over (so the callback may free or overwrite it), and leaves an empty list with count 0.",
  "every list contents and every callback that only changes the item it is given",
  "use-after-free is invisible to a test unless the allocator happens to reuse or poison the block",
  ["src/list.c: list_empty, list_remove"])
p("Hash tables behave as maps",
  "After any history of table_insert / table_remove, table_lookup(key) returns the entry most recently inserted under exactly that key (byte-for-byte) that is still present, and NULL if there is none; table->count equals the number of entries present.",
  "every history of inserts/removes/lookups over arbitrary NUL-free byte-string keys, including any set of keys that collide in the 503 buckets",
  "collisions and shadowing depend on unboundedly many key sets and histories",
  ["src/table.c: table_index, table_lookup, table_insert, table_remove", "src/table.h"])
p("The array view and emptying of a table cover every entry exactly once",
  "table_in_array produces an array of length table->count holding every entry exactly once, never stale after later inserts/removes; table_empty hands each entry to the callback exactly once and leaves an empty table.",
  "every table reachable by inserts/removes",
  "a lost or duplicated entry needs a particular bucket layout",
  ["src/table.c: table_in_array, table_empty, free_array"])
p("sort yields a sorted permutation",
  "For every array and every comparison routine that is a total preorder, sort() terminates, accesses only elements of the array, permutes it, and leaves every earlier element comparing <= every later one. For an arbitrary (even inconsistent) comparison routine it still terminates, stays in bounds and permutes. Asked to sort the first elements of a longer array it neither moves nor looks at the others. Of the elements it uses only the signs of their comparisons. It is not stable.",
  "all arrays of any length and all comparison functions",
  "quicksort bugs hide in particular patterns of duplicates / boundaries; comparison functions are a function space",
  ["src/sort.c: sort, quicksort", "src/sort.h"])
p("Report orderings are consistent total orders",
  "The comparison routines used for reports (confusions by errors, marked, key; terms by key; n-grams by value and by count; words by count) are total orders on entries with distinct keys, so a report's row order is determined by its contents. ustrcmp is a total order that compares bytes as unsigned.",
  "all pairs and triples of entries with counts below 2^31 (beyond, the difference does not fit the int returned and the claim is false, see C07_large_counts_refuted)",
  "transitivity is a statement over all triples; int truncation of a long difference only bites on huge counts",
  ["src/util.c: ustrcmp", "src/accrpt.c: compare_conf", "src/wacrpt.c: compare_term", "src/ngram.c: order_by_value, order_by_count", "src/wordfreq.c: order_by_key, order_by_count"])
# ---------------------------------------------------------------- text
p("UTF-8 input is decoded exactly or rejected",
  "Reading a byte stream yields a code point sequence if and only if the stream is the UTF-8 encoding (RFC 3629: shortest form, no surrogates, <= U+10FFFF) of that sequence; otherwise the program reports an error. No byte is silently skipped or replaced and there is no out-of-bounds access.",
  "all finite byte streams and all finite sequences of Unicode scalar values",
  "the malformed inputs (overlong, truncated, surrogate, stray continuation) form an unbounded set",
  ["src/text.c: read_contents, cstring_to_text, encode_or_die", "utf8proc_iterate / utf8proc_encode_char (external)"])
p("Suspect markers mark exactly the next character",
  "With marker detection on, a maximal run of '^' characters is removed and marks exactly the following character as suspect; a character not preceded by '^' is not suspect; with detection off '^' is an ordinary character and nothing is suspect.",
  "all character streams",
  "runs of markers and trailing markers can occur at every position of arbitrarily long input",
  ["src/text.c: read_contents", "src/text.h: Textopt"])
p("Normalised text is in canonical spacing form",
  "After reading with normalisation, the newly read text contains no blank-like character except U+0020, no two adjacent blanks, no blank at the start or end of a line or of the text, no empty line and no newline at the start of the text.",
  "all input texts, all classifications of characters into blank/non-blank by the Unicode database",
  "the removal loop works with one-character lookahead; a missed case needs a particular pattern of blanks and newlines",
  ["src/text.c: compress_spacing, is_blank"])
p("Normalisation preserves content",
  "Normalisation keeps the sequence of non-blank, non-newline characters with their suspect flags, and between two consecutive ones keeps a newline if the gap contained one, otherwise a single blank if the gap was non-empty, otherwise nothing; a kept blank is suspect iff some blank of its gap's run was. Normalising twice changes nothing.",
  "all input texts",
  "word joining or splitting would depend on the exact gap contents",
  ["src/text.c: compress_spacing"])
p("Reading appends and leaves earlier text untouched",
  "read_text on a non-empty Text leaves the characters already present unchanged (including blanks at the old end) and appends exactly the text that reading into an empty Text would have produced.",
  "all previous contents, file contents and option settings",
  "interaction between old tail and new head cannot be enumerated",
  ["src/text.c: read_text, append_char"])
p("Header skipping",
  "With find_header, if the file starts with the ocreval vendor-interface title then everything up to and including the second divider line is skipped and found_header is set; otherwise nothing is skipped and every byte of the file is read as text. A text written with a header by write_text and read back with find_header yields the text as if no header had been written.",
  "all files and all header bodies with lines of at most 98 bytes (for longer lines it is false, see C13_long_line_refuted)",
  "depends on arbitrary header contents and on line chunking by the 100 byte buffer",
  ["src/text.c: read_header, write_text, read_text"])
p("write_text / read_text round trip",
  "For a text whose characters are all graphic, non-combining and different from '^' (or newline), reading back (markers on, no normalisation) the file written by write_text returns the same characters with the same suspect flags.",
  "all such texts",
  "unbounded texts over the whole Unicode range",
  ["src/text.c: write_text, char_to_string, read_contents"])
p("char_to_string stays within STRING_SIZE",
  "char_to_string writes at most STRING_SIZE bytes including the terminator, for every code point, suspect flag and newline mode, and never fails to encode.",
  "all code points 0..0x10FFFF, both flags, any assignment of Unicode categories",
  "1.1 million code points times category data; the overflow is silent",
  ["src/text.c: char_to_string", "src/text.h: STRING_SIZE"])
p("Characters in reports are read back exactly",
  "The bracketed character representation written in accuracy reports is parsed back to the same code point by the reader, for every code point (including '<', '{', '}', newline, control, combining and dotted-circle characters).",
  "all Unicode scalar values, any assignment of categories in which no ASCII character is a combining mark",
  "1.1 million code points; special cases interact",
  ["src/accrpt.c: read_char, write_class", "src/text.c: char_to_string"])
# ---------------------------------------------------------------- sync
p("Optimal synchronisation partitions both texts",
  "fastukk_sync returns a list of substring pairs that are consecutive, cover both texts exactly and in order, are never both empty, and whose start/stop/length fields agree.",
  "all pairs of texts",
  "partition errors arise only for particular match patterns at the boundaries",
  ["src/sync.c: fastukk_sync, initialize_synclist, save_match, obtain_matches", "src/sync.h"])
p("Matches are genuine and numbered",
  "In the result of fastukk_sync the two substrings of every matched item are equal, non-empty, character for character, contain no reject character '~', and the match numbers are 1,2,3,... in list order; unmatched items have no number.",
  "all pairs of texts",
  "universally quantified over contents",
  ["src/sync.c: fastukk_sync, compute_f, number_matches"])
p("Optimal synchronisation is optimal",
  "The total cost of the unmatched items (the larger of the two lengths of each) equals the minimum number of single-character insertions, deletions and substitutions transforming one text into the other, where '~' never matches anything.",
  "all pairs of texts",
  "optimality compares against every possible edit script; the pruned search window could discard the optimum only for special inputs",
  ["src/sync.c: compute_pathlist, compute_f, initial_f, obtain_matches"])
p("Optimal synchronisation is safe and terminates",
  "fastukk_sync always terminates, never reports 'internal synchronization error', never reads outside the text arrays or the per-step arrays, and performs exactly (edit distance + 1) rounds.",
  "all pairs of texts",
  "window bookkeeping errors show only for particular shapes",
  ["src/sync.c: compute_pathlist, compute_f, initial_f, obtain_matches, save_match"])
p("Heuristic synchronisation partitions and matches genuinely",
  "synchronize on 2..16 texts terminates and returns items covering every text exactly and in order, never empty in all texts; in each matched item all substrings are equal, non-empty and reject-free; match numbers are 1,2,3,... in order. With fewer than 2 or more than 16 texts it reports an error.",
  "all tuples of 2..16 texts",
  "termination of the prev/next recursion depends on matches never being adjacent",
  ["src/sync.c: synchronize, recursive_sync, longest_match, save_match"])
p("Heuristic synchronisation matches greedily and completely",
  "For two texts, the matched item chosen first is a longest common reject-free substring, and no unmatched item of the final list has a non-reject character in common between its two substrings. For any number of texts no matched item can be extended by a character on either side into the neighbouring unmatched item.",
  "all pairs (tuples) of texts",
  "maximality quantifies over all substrings",
  ["src/sync.c: longest_match, recursive_sync"])
p("Transposing synchronisation pairs substrings",
  "transpose_sync terminates; each of its two lists partitions its text exactly and in order; there is a one-to-one correspondence between matched items of the lists (equal match number) under which the substrings are equal, non-empty and reject-free; numbers are 1..M in the order of the first list.",
  "all pairs of texts",
  "the greedy loop interleaves splits of two lists",
  ["src/sync.c: transpose_sync, longest_match, save_match, number_matches"])
p("Transposing synchronisation leaves nothing in common",
  "When transpose_sync returns, no non-reject character occurring in an unmatched item of the first list occurs in an unmatched item of the second, and matches were made longest first.",
  "all pairs of texts",
  "quantifies over all pairs of remaining positions",
  ["src/sync.c: transpose_sync, longest_match"])
# ---------------------------------------------------------------- accuracy
p("Character accuracy counts are exact",
  "accuracy reports as Characters the number of non-'~' characters of the correct text, and as Errors the minimum edit distance between the texts when the correct text contains no '~'; in general Errors never exceeds that distance, and identical texts have 0 errors.",
  "all pairs of texts that the alignment accepts, the correct one without U+10FFFF (a noncharacter for which the class table has no entry, see C25_last_code_point_refuted)",
  "the reported number must be the optimum over all edit scripts",
  ["src/accuracy.c: process_synclist", "src/sync.c: fastukk_sync"])
p("Accuracy report figures are mutually consistent",
  "In accuracy's result: Errors = Ins+Subst+Del of the totals row; totals row = marked row + unmarked row; the class table totals equal Characters and the sum of the per-class and of the per-character tables (count and missed); the confusion table's errors sum to Errors and its marked column to the marked row's errors; false marks <= suspect markers; the characters missed in all classes are the insertions and substitutions, so Errors = missed + deletions.",
  "all pairs of texts as in C25",
  "cross-footing must hold for every input",
  ["src/accuracy.c: process_synclist, add_ops", "src/accrpt.c: add_class, add_conf"])
p("Reject and suspect counts",
  "Reject Characters = number of '~' in the generated text; Suspect Markers = number of suspect non-reject characters of the generated text; False Marks = number of those that lie in matched substrings; an error group is counted as marked exactly when its generated side contains a reject or suspect character.",
  "all pairs of texts as in C25",
  "universally quantified over contents and flags",
  ["src/accuracy.c: process_synclist"])
p("Confusion keys fit their buffers",
  "The confusion key built for any unmatched item fits in its 28-byte side buffers and 100-byte key buffer, is a single line, and with its two count columns fits in one report line read back by the reader.",
  "all substrings of all texts",
  "truncation logic depends on encoded lengths of arbitrary characters",
  ["src/accuracy.c: make_key", "src/accrpt.c: LINE_LENGTH"])
p("Accuracy report round trip",
  "Reading a report written from accumulated accuracy data into empty data reproduces all of its figures (summary, operation rows, class tables, per-character table, confusion table), provided every figure is below 100,000,000.",
  "all well-formed accuracy data",
  "the column-based text format must be parsed back for every combination of figures and characters",
  ["src/accrpt.c: read_accrpt, write_accrpt"])
p("accsum adds reports",
  "accsum of reports r1..rn yields the pointwise sum of their figures; the result does not depend on the order of the arguments nor on grouping (summing partial sums).",
  "all finite lists of reports written by the programs with figures below 10^8, the width of a column",
  "unbounded lists, all permutations and groupings",
  ["src/accsum.c: main", "src/accrpt.c: read_accrpt, write_accrpt, add_class, add_conf"])
p("Malformed reports are rejected without undefined behaviour",
  "read_accrpt, read_wacrpt and read_edorpt, on any byte stream that is not a report, report an error; they never write outside their tables.",
  "all byte streams",
  "adversarial inputs are unbounded",
  ["src/accrpt.c: read_accrpt", "src/wacrpt.c: read_numbers", "src/edorpt.c: read_edorpt"])
p("Character classes",
  "charclass assigns to each code point below U+10FFFF the class of the last listed range containing it, or 'Unassigned' if none; class numbers are valid arguments of charclass_name, which returns the name of that range; equal names share one class.",
  "all code points",
  "1.1 million code points against an overlapping table",
  ["src/charclass.c: initialize_charclass, charclass, charclass_name"])
# ---------------------------------------------------------------- words
p("Word-break property lookup",
  "The binary search returns, for every code point, the property of the unique table range containing it and Other if none does; it terminates and stays inside the table.",
  "all 32-bit code points",
  "2^32 arguments",
  ["src/word.c: search_for_property, property", "src/word_break_property.h: WORD_BREAK_PROPERTY"])
p("Word segmentation partitions the text",
  "The segments enumerated while finding words are non-empty, consecutive and cover the whole text (unless the text consists only of Extend/Format characters, when there are none); the enumeration terminates and never dereferences NULL.",
  "all texts",
  "lookahead/skip logic at end of text",
  ["src/word.c: find_words, find_next_boundary, skip_to_next, skip_twice, skip_to_end_of_extend"])
p("Word boundaries follow UAX #29",
  "Segment boundaries are exactly the word boundaries of UAX #29 rules WB1-WB14 (Unicode 8), for texts in which no Extend/Format character starts the text or follows a CR, LF or Newline.",
  "all such texts",
  "rule interaction over unbounded context",
  ["src/word.c: find_next_boundary"])
p("Words are the segments that start like words",
  "find_words appends, in text order, exactly the segments whose first character is a letter, mark, number, connector punctuation or private-use character, each encoded in UTF-8 and NFC-normalised.",
  "all texts, any Unicode category data and NFC function",
  "unbounded texts",
  ["src/word.c: find_words, append_word, find_utf8_length, copy_into_buffer, is_word_start"])
p("Word recognition is a longest common subsequence",
  "wordacc marks as recognised exactly the matched positions of a longest common subsequence of the correct and generated word sequences; Misrecognized = Words - length of that LCS. A word added to the generated text never costs a recognised word, and a word left out costs at most one. No word is misrecognized exactly if the correct words occur in their order among the generated ones, and all are exactly if the texts have no word in common.",
  "all pairs of word sequences (correct side at most 65535 words common to both)",
  "optimality over all alignments; window pruning and zero-initialised cells",
  ["src/wordacc.c: setup, setup_array, compute_pathlist, compute_f, initial_f, obtain_matches"])
p("Word accuracy figures are consistent",
  "In wordacc's result (all words at most 50 bytes): Words = number of correct words = stopword total + non-stopword total; each by-length table sums to its total; the per-word tables hold each distinct word with its number of occurrences and of misrecognised occurrences; the distinct table counts each distinct non-stopword once, under its number of occurrences (more than 10 grouped), as missed iff never recognised.",
  "all pairs of word sequences and stopword sets",
  "unbounded vocabularies",
  ["src/wordacc.c: determine_wacdata, process_terms", "src/wacrpt.c: add_term, increment_wac"])
p("Phrase accuracy",
  "For each length L=1..8, the phrase table counts max(0, W-L+1) phrases of L consecutive correct words, of which the missed ones are exactly those containing an unrecognised word. Hence a missed word spoils at most L phrases of L words, and no more phrases are right of a greater length than of a smaller one.",
  "all word sequences",
  "unbounded sequences",
  ["src/wordacc.c: process_phrases"])
p("Words of any length are handled",
  "wordacc tabulates words of any length without writing outside its by-length tables, by their length in characters.",
  "all words",
  "needs words longer than the table",
  ["src/wordacc.c: process_terms", "src/word.h: MAX_WORDLENGTH", "src/wacrpt.h"])
p("Word accuracy report round trip and summation",
  "Reading back a written word accuracy report reproduces its figures (figures below 100,000,000, words at most 68 bytes); wordaccsum yields the pointwise sum independent of order and grouping.",
  "all well-formed word accuracy data, all finite lists of reports",
  "column-based format over arbitrary contents",
  ["src/wacrpt.c: read_wacrpt, write_wacrpt, read_numbers, read_terms", "src/wordaccsum.c"])
p("Stopwords",
  "After init_stopwords, is_stopword(s) holds exactly for the words of the stopword file (or the 110 distinct default words); initialising twice or querying before initialisation reports an error. The choice of stopwords decides only in which of wordacc's two tables a word is counted: the totals, the phrases, the sums of the two tables and the figures of each word stay the same, and with more stopwords no figure of the stopwords falls.",
  "all stopword lists and query strings, all call histories",
  "all strings",
  ["src/stopword.c: init_stopwords, save_stopword, is_stopword"])
# ---------------------------------------------------------------- editop
p("Edit operation counts account for every character",
  "editop's insertions are the non-'~' characters of the correct text outside matched blocks and its deletions the characters of the generated text outside matched blocks; matched blocks are equal, disjoint and cover the rest of both texts, so the correct text (its '~' apart) is an interleaving of inserted characters and a permutation of the kept blocks.",
  "all pairs of texts",
  "conservation over all inputs",
  ["src/editop.c: count_insertions, count_deletions", "src/sync.c: transpose_sync"])
p("Block moves sort the blocks",
  "count_moves terminates, performs at most (number of blocks - 1) moves, ends with a single block (blocks in correct order), conserves the total number of matched characters, never indexes outside its candidate array, and records each move under min(length,100) so that the per-length counts sum to the total.",
  "every permutation of blocks of every size",
  "factorially many block permutations",
  ["src/editop.c: count_moves, combine_adjacent, find_candidates, find_move, perform_move, decrement_match"])
p("Edit operation report round trip and summation",
  "Reading back a written edit operation report reproduces its figures; editopsum yields the pointwise sum independent of order and grouping.",
  "all well-formed edit operation data (any size of figures), all finite lists of reports",
  "text format over arbitrary figures",
  ["src/edorpt.c: read_edorpt, write_edorpt", "src/editopsum.c"])
p("Edit operation cost",
  "editopcost prints for each threshold T=0..100 the cost insertions + sum over moves of min(T, move length), and with a second report the difference of the two costs. The curve of costs begins with the insertions, rises from each threshold to the next by the number of moves longer than the threshold, never falls, rises less and less and is flat from the longest move on. At every threshold the cost of the report editopsum makes of several reports is the sum of their costs.",
  "all well-formed reports",
  "running-sum formulation must equal the closed form for all inputs",
  ["src/editopcost.c: write_results, decrement_edodata"])
# ---------------------------------------------------------------- vote
p("Voting terminates and elects pluralities",
  "perform_vote terminates for every synchronisation; each output character is one with maximal vote weight among the next characters (and end-of-substring votes) of the inputs, the earliest voter's candidate winning ties, or '~' when every vote was a reject; it is marked suspect exactly when its weight does not exceed the threshold.",
  "all inputs, weights and thresholds",
  "all vote patterns",
  ["src/vote.c: place_vote, winner, perform_vote"])
p("Unanimous voting is the identity",
  "Voting over 2..16 copies of the same text reproduces the text's characters.",
  "all texts, all numbers of voters",
  "depends on the synchronisation of a text with itself",
  ["src/vote.c: perform_vote", "src/sync.c: synchronize"])
p("Voting options",
  "The -s and -w options accept exactly the strings m/n with 1 <= m <= n <= 9 (single digits) and reject anything else; the threshold is floor(voters*weight*m/n).",
  "all option strings",
  "all strings",
  ["src/vote.c: valid_fraction, validate_args"])
# ---------------------------------------------------------------- misc tools
p("n-gram counts are exact",
  "ngram counts, for every sequence of n (1..3) characters, exactly its number of occurrences in the input texts and the number of those with a suspect character, lists each occurring sequence once, and the totals are the sums.",
  "all texts and all n in 1..3",
  "distinct sequences must have distinct table keys; a statement over all pairs of sequences",
  ["src/ngram.c: process_file, add_sequence, write_report"])
p("Word frequencies are exact",
  "wordfreq lists each distinct word once with exactly its number of occurrences over all input files and the total number of words, sorted by key and then by decreasing count. For two lots of files together, each word has the sum of its counts.",
  "all word sequences",
  "unbounded vocabularies",
  ["src/wordfreq.c: process_file, write_report", "src/wacrpt.c: add_term"])
p("Accuracy distribution",
  "accdist/wordaccdist: entry i (0..100) is the total count of those pages whose accuracy is at least i percent, exactly (not merely up to floating point rounding) for counts below 2^46; entries are non-increasing in i and never index outside 0..100. The order of the reports and reports of empty pages do not matter, and the mean of the entries 1..100 is the total accuracy, rounded down by less than one percent.",
  "all finite lists of (count, missed) pairs with 0 <= missed and count < 2^46",
  "floating-point boundary cases are astronomically many",
  ["src/dist.c: update_dist, write_dist", "src/accdist.c", "src/wordaccdist.c"])
p("Confidence interval bounds",
  "compute_ci reports an error unless at least two observations are non-empty; otherwise it divides by no zero and returns 0 <= lower <= upper <= 100. For at most 10000 pages with accuracies of at least -100% the ends are within 1/1000 of those of the exact interval: the mean of the jackknife pseudovalues plus or minus 1.96 standard errors, cut off at 0 and 100.",
  "all lists of at most 2^31 observations with non-negative figures, totals at most 2^63",
  "real-valued arithmetic over unbounded lists",
  ["src/ci.c: compute_ci, append_obs, valid_obslist"])
p("Non-stopword accuracy curve",
  "nonstopacc's line i is the accuracy over all word occurrences except those of the first i stopwords of the file, and it stops when no words are left.",
  "all stopword lists and word reports",
  "unbounded lists",
  ["src/nonstopacc.c: write_results, find_stopword"])
p("Group accuracy",
  "groupacc lists, for the characters of the group file in order, their count and missed figures from the report and totals their sum, skipping blanks, newlines and absent characters.",
  "all group files without U+10FFFF (for which it fails, see C55_last_refuted) and all reports written by accuracy or accsum",
  "unbounded texts",
  ["src/groupacc.c: write_report"])
p("Command line parsing",
  "initialize keeps exactly the non-option arguments in order, sets each option at most once with the attached or following string value, and reports unknown or duplicate options as errors; '-' alone is an argument; any prefix of -help of length at least 2 shows the usage.",
  "all argument vectors and option tables",
  "all argument vectors",
  ["src/util.c: initialize, parse_args, split_option"])
p("Base filename",
  "basefilename returns the part of the path after its last '/', or the whole path if it has none.",
  "all path strings",
  "all strings, including those longer than a short can index",
  ["src/util.c: basefilename"])
p("Temporary files are unique and removed on exit",
  "Within a process tempfilename never returns the same name twice and every name returned has been removed when the process exits through terminate, error or the first SIGINT/SIGTERM.",
  "all histories of tempfilename calls and exits",
  "all histories / interrupt points",
  ["src/util.c: tempfilename, delete_tempfiles, quit, handle_interrupt"])
p("synctext output determines its inputs",
  "synctext's output (matches with footnotes, followed by the differences) lists each unmatched item under its footnote number in order, so that replacing footnote k of the match text by file i's entry of difference k reconstructs exactly file i's text.",
  "all tuples of texts",
  "all texts",
  ["src/synctext.c: write_matches, write_differences, write_transposed"])
p("Block moves are chosen greedily",
  "editop moves, as long as the blocks are not in order, the run of blocks whose move home (next to its neighbour in the correct text) leaves the fewest runs of blocks in order; among those the shortest in characters, and among those the first one of the correct text. The sequence of lengths of the moves is thereby determined.",
  "all pairs of texts, every arrangement of matched blocks",
  "the choice depends on the whole arrangement; the flags that estimate the gain must be exact for every permutation",
  ["src/editop.c: find_candidates, find_move, perform_move, combine_adjacent"])
p("Selection of voters",
  "vote -O lets vote the three texts (or both, if there are two) that are nearest to the others, the nearest first: the distance of a text is the sum over all pairs of neighbouring characters that occur in any text of the difference between how often the pair occurs in it and the median of how often it occurs in the texts (zero for pairs with a reject character); equal distances keep the order of the command line, and the threshold of -s refers to the voters selected. A text more than half of the voters agree on has distance zero. Without -O all vote, in order. -D prints the distances and names in this order.",
  "all sets of 2 to 16 texts shorter than 2^31 characters (with the float and double arithmetic of the program: shorter than 2^22)",
  "the distances and medians are over all pairs of characters of unbounded texts",
  ["src/vote.c: add_sequence, count_sequences, compute_median, compute_distance, compare_distances, select_voters, validate_args, main"])
p("accuracy, from command line and files to the report",
  "Run as 'accuracy correctfile generatedfile [accuracy_report]' on two files in UTF-8, the first without header, the program leaves exactly one report, in the file of the third argument or on the standard output, and changes no other file. The report's Characters line is the number of characters other than '~' of the text the correct file stands for (suspect markers removed, spacing canonical), and its Errors line is the edit distance of the two texts, or at most that if the correct text has '~'. If a file is missing, not UTF-8, the first has a header, the text is too long, the report cannot be created, or the number of arguments is wrong, the program ends with an error message, and in no other way.",
  "all command lines without options, all file systems, all contents of the files (correct text without U+10FFFF), all Unicode data",
  "arguments, files and texts are unbounded; the path through option parsing, decoding, normalisation, alignment, counting and printing has to be right in every combination",
  ["src/accuracy.c: main", "src/util.c: initialize, open_file", "src/text.c: read_text", "src/accrpt.c: write_accrpt"])
p("wordacc, from command line and files to the report",
  "Run as 'wordacc [-S stopwordfile] correctfile generatedfile [wordacc_report]' on two files in UTF-8, the first without header, the program leaves exactly one report, in the file of the third argument or on the standard output, and changes no other file. Its Words line is the number of words of the text the correct file stands for, in lower case, and its Misrecognized line is that number less the length of a longest common subsequence with the words of the generated text; the figures for stopwords count the words of the stopword file, or of the built-in list if there is none.",
  "all command lines with or without -S, all file systems, all contents of the files with words of at most 50 bytes",
  "arguments, files and texts are unbounded; the path through option parsing, decoding, word segmentation, alignment, counting and printing has to be right in every combination",
  ["src/wordacc.c: main", "src/util.c: initialize, open_file", "src/stopword.c: init_stopwords", "src/wacrpt.c: write_wacrpt"])
p("Programs, their arguments and their files",
  "Every program applies its documented operation to the contents of the files named on its command line, in the order of the command line, with each option reaching the setting it stands for, and puts its result on the standard output or in the file named for it (third argument, or option -o of vote). It does its work only if each named input exists. Apart from the file named for the result no file is changed.",
  "all command lines with permitted options, all file systems and contents of files, all 17 programs",
  "arguments, files and their contents are unbounded",
  ["src/accsum.c: main", "src/accdist.c: main", "src/accci.c: main", "src/groupacc.c: main", "src/wordaccsum.c: main", "src/wordaccdist.c: main", "src/wordaccci.c: main", "src/nonstopacc.c: main", "src/wordfreq.c: main", "src/editop.c: main", "src/editopsum.c: main", "src/editopcost.c: main", "src/ngram.c: main", "src/synctext.c: main", "src/vote.c: main", "src/util.c: open_file, initialize"])
p("Page by page, then the total",
  "When accuracy is run on page after page, each time writing its report to a file of its own, accsum of these files prints a report whose Characters line is the number of characters of all correct texts and whose Errors line is the sum of the edit distances of the pages (no correct text with '~'). Likewise wordacc on page after page and wordaccsum: all words, and the sum of the words outside the longest common subsequences. Apart from the reports no file has changed.",
  "all sequences of two or more pages, all texts and file systems (totals below 10^8)",
  "numbers of pages and texts are unbounded; the property spans several programs and the files between them",
  ["src/accuracy.c: main", "src/accsum.c: main", "src/accrpt.c: write_accrpt, read_accrpt", "src/wordacc.c: main", "src/wordaccsum.c: main", "src/wacrpt.c: write_wacrpt, read_wacrpt"])
p("Trace of the moves with option -D of editop",
  "With -D editop writes the same report as without. Before it, it prints the matched items in the order of the generated text, each with its number in the correct text and its length, and then, for each move, the runs of items that are in order, with their numbers and lengths, the number of the run that is moved, and the runs in their new order; the runs moved are those of the greedy rule, and the last line shows one single part. In every line the lengths add up to the number of matched characters. Without -D nothing is printed besides the report.",
  "all pairs of texts (generated text of fewer than 10^13 characters, as the label has room for 13 digits)",
  "the number of items, and so of states, is unbounded, and every line depends on all the moves before it",
  ["src/editop.c: display, combine_adjacent, perform_move, count_moves"])
p("Printed percentages",
  "Every percentage the programs print is the true percentage to the nearest hundredth (at exact halves one of the two neighbours), right-justified in its column, with a minus sign if negative: the floating-point evaluation of 100.0 * n / d never shifts the last digit. So a page without errors shows 100.00, one with more than one error in 20000 shows less, and a better page never shows a smaller percentage. In particular the Accuracy line of the report that accuracy writes for a correct text of n characters at edit distance e shows the percentage of n - e in n.",
  "all counts below 2^38 and all totals up to 2^53; for the line of the report, all texts as in C62",
  "the error of two roundings must be compared with the distance of every fraction from every halfway point",
  ["src/accrpt.c: write_pct, write_accrpt", "src/wacrpt.c: write_pct, write_wacrpt", "src/dist.c: write_dist", "src/groupacc.c", "src/nonstopacc.c", "src/accci.c: write_results", "src/wordaccci.c: write_results"])
p("Runs that fail or are interrupted",
  "A program reads all its input files before it opens the file for its report, and opens only files named on its command line. If it ends with an error message, every file is as it was, and the report has not been begun. If it is killed at any moment, or the machine goes down with only a first part of what was written having arrived, every file is as it was except the report named on the command line (third argument, -o of vote), which is as it was or holds a first part of the complete report; the twelve programs that only print never change a file.",
  "all 17 programs, all command lines (for which files are named: those of options and arguments as in C56), all file systems, all crash points and all states of the output buffers",
  "every prefix of the actions of every run, and every failure, on inputs of any content",
  ["src/util.c: open_file, close_file, error", "src/text.c: read_text, write_text", "main of the 17 programs"])
p("ngram, wordfreq, synctext, vote and editop, from command line and files to the output",
  "Run on files in UTF-8, these programs print, for the texts the files stand for (suspect markers removed, spacing canonical, lower case where asked for): ngram -n, the table of all runs of 1, 2 or 3 characters with their numbers; wordfreq, the table of all words with their numbers; synctext, an alignment of the texts, of least edit distance for two texts, and with -T the numbered pieces two texts have in common; vote, the winners of the votes on the pieces into which the texts are cut, with -O of the three texts nearest the median, with the weights and threshold of -w and -s, in the file of -o; editop, a report whose insertions and deletions are the characters of the pieces without counterpart and whose moves put the pieces in common in order, with -D after their trace. No other file is changed.",
  "all command lines with permitted options and values, all file systems, all contents of the files (sizes within the limits of int)",
  "arguments, files and texts are unbounded; the path through option parsing, decoding, normalisation, synchronisation and printing has to be right in every combination",
  ["src/ngram.c: main", "src/wordfreq.c: main", "src/synctext.c: main", "src/vote.c: main, validate_args", "src/editop.c: main", "src/util.c: initialize, open_file"])
p("Reproducible results",
  "What a program prints, which files it leaves and how it ends is a function of its command line and of the texts its files stand for. It does not depend on what memory contains before it is written, on the order in which a hash table yields its entries, on whether char is signed, on how the texts are laid out in the files (blanks, blank lines, header), or, for ngram, wordfreq, accsum and wordaccsum, on the order in which the files are named.",
  "all command lines and pairs of file systems standing for the same texts, words or reports; all contents of the buffers before use; all orders of the tables; char signed or not",
  "two arbitrary executions are compared, over all states of memory and all orders of a table",
  ["src/text.c: read_text, read_header", "src/table.c", "src/sort.c", "src/vote.c: select_voters, compare_distances, valid_fraction", "main of accuracy, wordacc, groupacc, nonstopacc, wordfreq, ngram, synctext, vote, editop, accsum, wordaccsum"])
p("Tables as counters",
  "Each program that counts with a hash table (confusions, words, n-character sequences, pairs of characters, stopwords, words of two texts) looks up a key, allocates and inserts an entry if there is none, and adds to the fields of the entry. After any sequence of such calls the table holds each key that was given exactly once, with the sums of what was given for it; looking it up gives its entry and NULL for any other key; the array lists all entries once; a stopword is found iff it was saved; two words have the same entry iff they are equal. The only other outcome is the error message that there is no memory left.",
  "all sequences of calls, all keys (also keys hashing to the same slot), all addresses the allocator returns (never the same block twice), memory running out at any call",
  "histories of calls are unbounded and keys may collide in every way",
  ["src/accrpt.c: add_conf", "src/wacrpt.c: add_term", "src/ngram.c: add_sequence", "src/vote.c: add_sequence", "src/stopword.c: save_stopword", "src/wordacc.c: setup", "src/table.c: table_insert, table_lookup, table_in_array", "src/util.c: allocate"])
p("The numbers of errors are distances",
  "For texts without the reject character, Errors of accuracy is 0 iff the texts are the same, does not change when the texts are exchanged, is at most the sum of the errors through any third text, lies between the difference and the maximum of the lengths, changes by at most one when one character of the generated text is inserted, deleted or replaced, is not changed by a common beginning or end, does not change when both texts are read backwards, and is for two texts in parts at most the sum over the parts. Misrecognized words of wordacc are 0 iff the correct words occur in this order in the generated text; the number of recognized words does not change when the texts are exchanged; the misses obey the triangle inequality, change by at most one with one word, and do not change when the words of both texts are taken in reverse order.",
  "all texts (correct text without '~', within the limits of C25), all files for the program; all lists of words within the limits of C38",
  "relates several runs on arbitrary texts",
  ["src/accuracy.c: main", "src/sync.c: fastukk_sync", "src/wordacc.c: main, obtain_matches"])
p("Memory of texts and words",
  "Reading a text allocates one block for each character kept, frees those taken out when spacing is compressed, and touches no other block; no block is used after it was freed or freed twice, and none is lost. ngram holds only the text of the last file. find_words allocates a word and a string for each word and frees its buffers; free_word frees both. wordfreq holds, after any number of files, nothing but the keys of its table, which are copies of the different words with their numbers of occurrences. If there is no memory for a character, a word or an entry, the program ends with a message. (Without memory for the buffer of a word or the copy of a key it writes through NULL instead.)",
  "all files and numbers of files, all texts already in memory, all allocators that return NULL or a block not in use (also one freed before), all contents of fresh blocks",
  "the history of allocations and releases is unbounded, and blocks may be handed out again in any order",
  ["src/text.c: append_char, compress_spacing, lowercase, read_text", "src/word.c: append_word, find_words, free_word", "src/list.c: list_insert_last, list_remove, list_empty", "src/wordfreq.c: process_file", "src/ngram.c: process_file", "src/wacrpt.c: add_term", "src/util.c: allocate"])
p("From the pages to the statistics",
  "Run accuracy (wordacc) on page after page and a statistics program on the reports. accdist (wordaccdist) prints the distribution of the accuracies of the pages, each with the characters (words) of its correct text and its edit distance (words outside a longest common subsequence); accci (wordaccci) prints their totals and ends of a confidence interval within 1/1000 of the exact jackknife interval of these figures. groupacc prints, for each character of the group, its occurrences in the correct text of the page and those outside the recognized parts of a cheapest alignment of the two texts. nonstopacc prints the accuracy of the words of the page that are not among the first 0, 1, 2, ... given words. No other file changes.",
  "all file systems and numbers of pages, all pages the programs can handle (limits of C62 and C63, correct texts without '~' for accdist and accci), all groups of characters other than U+10FFFF, all files of different words; accci: at least two pages that are not empty, at most 10000 pages, edit distance at most twice the number of characters",
  "relates arbitrary texts to the output of a second program that reads the reports of the first",
  ["src/accdist.c: main", "src/accci.c: main", "src/wordaccdist.c: main", "src/wordaccci.c: main", "src/groupacc.c: main", "src/nonstopacc.c: main", "src/accuracy.c: main", "src/wordacc.c: main"])
p("How a character is shown",
  "In a report and in a written text a character is shown in one form, which its value and Unicode category determine: letters, numbers, punctuation, symbols, private-use characters and the space as themselves in UTF-8, combining marks on a dotted circle, an end of line as <\\n> in reports, everything else as its value in upper-case hexadecimal between angle brackets, with at least two digits below 256 and at least four from there on. A suspect character has a circumflex in front. Two characters that differ in value or in being suspect are shown differently. A visible value above the Unicode range ends the program with a message.",
  "all Unicode data bases (for the last but one statement: no ASCII character is a combining mark), all values, suspect or not, ends of line named or not",
  "all values and all assignments of categories",
  ["src/text.c: char_to_string, is_graphic_character, is_combining_character, encode_or_die", "src/accrpt.c: write_accrpt"])
p("From the pages to the costs of correction",
  "Run editop on page after page. editopsum on the reports prints the report of the edits of all pages together: the sums of their insertions and deletions and all their moves by length. editopcost on the report of a page prints, for each threshold from 0 to 100, the number of insertions plus the lengths of the moves, each counted up to the threshold; on two reports the differences; and on a saved output of editopsum the sums of the costs of the pages. Only the reports are written.",
  "all file systems and numbers of pages, all texts (the generated ones below 10^13 characters; for costs of sums below 2^63 characters in total)",
  "relates arbitrary texts to the output of programs that read the reports of other programs",
  ["src/editop.c: main", "src/editopsum.c: main", "src/editopcost.c: main", "src/edorpt.c: read_edorpt, write_edorpt"])
p("Texts made of strings",
  "cstring_to_text returns true exactly for the strings that are UTF-8 encodings of a sequence of characters, and then appends these characters, none marked as suspect; otherwise it has appended the characters of the longest part that can be decoded. It always ends and reads nothing beyond the terminating NUL, also in a string that breaks off within a character. The text is the one read_text obtains from a file with the same bytes.",
  "all strings of bytes",
  "all strings, in particular all ways in which an encoding can be wrong or break off",
  ["src/text.c: cstring_to_text, append_char, read_text"])
p("Memory of synchronizations",
  "Synchronizing texts, with any of the three algorithms and whatever addresses calloc returns, either ends the program because memory ran out or returns the list of the synchronization. No block is accessed before it is allocated or after it is freed, none is freed twice, everything allocated before the call is unchanged, and when the call returns exactly the items of the returned list, their arrays of substrings and the numbers of the matches have been added: the rows and diagonals of the computation are all freed, and none of the items made on the way is lost. The lists that fastukk_sync keeps between calls are empty again, so calls can be repeated, and later calls do not disturb the lists returned by earlier ones. The two lists of transpose_sync have the numbers of their matches in common.",
  "all texts (2 to 16 of them for synchronize; the first up to the limit of fastukk_sync), all sound allocators, all memories before the call, any number of calls",
  "all allocators and all texts; a leak or an access to a freed block changes no output in a test",
  ["src/sync.c: create_sync, destroy_sync, initialize_synclist, save_match, synchronize, fastukk_sync, compute_pathlist, obtain_matches, transpose_sync", "src/list.c", "src/util.c: allocate"])
p("Layout of the reports",
  "An accuracy report, a word accuracy report and a report of edit operations consist of exactly the documented lines in the documented order: title, divider, the totals with their names, and the tables, each after an empty line. In a table the figures stand right-justified under their headings (columns 8, 17, 26 and 35), percentages too, followed by the name, the length, the character or the word; rows appear for exactly the lengths, classes, characters and words that occur, lengths and characters in increasing order, words in the order of their bytes, confusions with more errors first. There is only one file that fits the description.",
  "all data of reports with figures below 100,000,000 (beyond, columns shift, C79_wide_refuted), all orders in which tables are listed",
  "all data; a heading or column that is off by one is not noticed by the programs that read reports",
  ["src/accrpt.c: write_accrpt", "src/wacrpt.c: write_wacrpt, write_numbers, write_terms, write_wac", "src/edorpt.c: write_edorpt"])
p("Memory of edit operations",
  "Counting the insertions, deletions and moves between two texts, whatever addresses calloc returns, either ends the program because memory ran out or yields the numbers of operations that the texts determine. While items of the second list are discarded, joined and moved, no block is accessed that is not allocated and none is freed twice, although the numbers of matches are shared between both lists. Afterwards the first list with its arrays is as before, at most one item of the second list is left, which has number 1 and the length of all characters that were not deleted, and everything else that was allocated on the way, including all arrays of candidates, has been freed; nothing that was allocated before is changed.",
  "all pairs of texts, all sound allocators (which may return addresses that were freed), all memories before the call",
  "all allocators and texts; an access to a freed block changes no output in a test",
  ["src/editop.c: discard_sync, count_insertions, count_deletions, decrement_match, combine_adjacent, find_candidates, find_move, perform_move, count_moves", "src/list.c", "src/sync.c: transpose_sync"])
p("Depth of recursion",
  "Sorting n elements never has more than n - 1 calls of the sorting function active at once, whatever the comparison routine; synchronizing texts never more than one call per character of the first text and one more; looking up the word-break property of a character never more than 12. For sort the bound is reached: elements that are already in increasing order need n - 1 nested calls, so no fixed stack suffices for all arrays.",
  "all arrays and comparison routines, all texts (2 to 16 of them), all characters",
  "all sizes; a test with small arrays says nothing about the stack that large ones need",
  ["src/sort.c: sort, quicksort", "src/sync.c: synchronize, recursive_sync", "src/word.c: property, search_for_property"])
p("Messages on the standard error and the exit status",
  "A program that does its work exits with status 0 and has nothing on the standard error, except that wordacc names every word that stands repeatedly in its file of stopwords. -help, or no arguments, gives one line with the usage and the status 0. In every other case that is not undefined the status is 1 and the last line on the standard error is the name of the program (the last part of argv[0]), a colon, a message, and in quotation marks what is to blame: a file that cannot be opened, a report that cannot be created, a malformed report (the last file that was read), an option, or the value of an option. A program for which one file is missing or cannot be written does exactly what it would otherwise do until it comes to that file, and then names it.",
  "all seventeen programs, all command lines, all file systems, all contents of files",
  "scripts decide by the exit status and users by the message; a test sees a few of the ways in which a program can end, not all command lines and all files",
  ["src/util.c: error, error_string, warning_string, quit, terminate, initialize, parse_args, open_file", "src/stopword.c: save_stopword", "src/accrpt.c: read_accrpt", "src/wacrpt.c: read_wacrpt", "src/edorpt.c: read_edorpt", "src/ngram.c: get_n", "src/vote.c: validate_args", "src/*.c: main, usage"])
p("The messages of the programs are true",
  "When a program ends with status 1, what it says last is so. 'unable to open file' names the next file to be read, and it does not exist; 'unable to create file' names the file for the report, and it cannot be written. For a text, 'invalid UTF-8 character' means that where a character should start there is a byte that starts none, 'unexpected end of input' that the file ends within a character, 'Invalid UTF-8 string was supplied' that the bytes there encode no character; everything before that place is UTF-8, and a text that is not UTF-8 has exactly one of these messages. 'invalid format in' names a report that does not start as one, 'invalid character in' an accuracy report with a row that shows no character. 'no correct file specified': the first text has a header. 'not enough observations': at most one of the reports counts anything. 'text stream is too long': the first text has more than 2^63-1 characters, or (wordacc) more than 65535 words of the first occur in the second. 'invalid number of ...', 'no text files specified', 'not enough input files': the number of arguments is not allowed. 'invalid value', 'invalid weight', 'invalid threshold': the value of the option is none of those allowed. No other message occurs.",
  "all seventeen programs, all command lines, all file systems, all contents of files",
  "a message is only useful if it is right for every input that leads to it; a test checks the message for inputs of which the cause is known",
  ["src/text.c: read_text, read_header, read_contents", "src/util.c: error, error_string, open_file", "src/accrpt.c: read_accrpt, read_char", "src/wacrpt.c: read_wacrpt", "src/edorpt.c: read_edorpt", "src/ci.c: compute_ci", "src/sync.c: fastukk_sync, synchronize", "src/wordacc.c", "src/ngram.c: get_n", "src/vote.c: validate_args", "src/*.c: main"])
p("Counters stay within the range of a long",
  "No counter of the programs overflows while the texts and reports stay within stated bounds, which no input that fits into memory or on a disk exceeds: the figures of accuracy (and the sums and differences it prints) are longs, and at most the number of characters of the two texts, if twice that number is a long; likewise the tables of wordacc for words whose number times eight is a long, the counts of wordfreq and ngram for as many words or characters as a long counts, the edit operations of editop for texts whose length is a long, the sums and the differences of accsum, wordaccsum, accdist, wordaccdist, accci and wordaccci for up to 92233720368 reports, the totals of groupacc for a group of up to as many characters, the remaining figures of nonstopacc for half as many stopwords, those of editopsum if the sums are longs, the costs of editopcost if the insertions plus 100 times the moves are. Within these bounds the checked programs do exactly what the programs with unbounded counters do. Reading a report of any contents either does the same or overflows; and with figures in the reports that add up to more than 2^63-1 it does overflow.",
  "all texts, words, files and reports within the bounds; for reports also all contents of files",
  "an overflow needs inputs too large to test with, or adversarial reports; that no addition can overflow is a statement about all reachable values of every counter",
  ["src/accuracy.c: process_synclist, add_ops", "src/accrpt.c: add_class, add_conf, read_accrpt", "src/wordacc.c: add_term, process_term, process_phrases", "src/wordfreq.c: write_array", "src/ngram.c: add_sequence", "src/editop.c: count_insertions, count_deletions, combine_adjacent, perform_move", "src/edorpt.c: read_edorpt", "src/editopsum.c", "src/editopcost.c: write_results", "src/accsum.c", "src/wacrpt.c: read_wacrpt", "src/wordaccsum.c", "src/dist.c: update_dist", "src/accdist.c, src/wordaccdist.c: process_file", "src/ci.c: append_obs, compute_ci", "src/accci.c, src/wordaccci.c: process_file", "src/groupacc.c: write_report", "src/nonstopacc.c: find_stopword"])
p("The words of a text are those of its lines",
  "The words found in a text are the words of its lines, one line after the other: when a text is cut at a character that stands apart (a newline other than a carriage return, a blank, or any other character without a particular word-break property that cannot start a word), the words of the whole are those of the part before followed by those of the part after, provided the part after does not start with a combining mark or format character and the part before does not consist of such characters only. Cutting a file at a newline therefore changes none of the words the programs read from it, whatever blanks, suspect marks and empty lines stand around the cut, and wordfreq prints the same report for the file and for its two parts given one after the other. A part that starts with a combining mark is shown to be a real exception.",
  "all texts of any length and any number of lines, all cuts at such characters, all files and newlines in them, all Unicode data",
  "word breaking looks at up to two characters on each side and skips combining marks, and spacing is compressed across lines; tests try few of the contexts in which a cut may fall",
  ["src/word.c: find_words", "src/word_break_property.h", "src/text.c: read_text, compress_spacing", "src/wordfreq.c: main, process_file"])
p("Suspect marks change no figure but the counts of marks",
  "Files that are the same up to circumflexes (suspect marks) give the same words, the same wordfreq and editop reports and the same n-gram counts; accuracy counts the same characters, errors, rejected characters, edit operations, character classes and confusions, whatever is marked. Marks in the correct text change nothing at all. When more characters of the generated text are marked, the number of suspects, of false marks and of marked errors (in all and for each confusion) does not fall and the number of unmarked errors does not rise.",
  "all files and texts, all ways to mark their characters, all Unicode data",
  "the alignment, the classes and the confusions are computed from the same characters that carry the marks; that no figure leaks from the marks must hold for every pair of texts and every choice of marked characters",
  ["src/accuracy.c: process_synclist", "src/text.c: read_text", "src/word.c: find_words", "src/wordfreq.c: main", "src/ngram.c: process_file, add_sequence", "src/editop.c: main"])
p("The case of letters does not matter where case is ignored",
  "A program that ignores case (wordacc, wordfreq, stopword files, synctext -i) reads two files that differ in the case of letters only as the same text, the same characters with the same marks, so that it counts the same words, knows the same stopwords, and prints the same: wordfreq prints the same report and synctext -i the same synchronization.",
  "all files of UTF-8 characters that are pairwise the same in lower case, all options, all Unicode data in which lower-casing keeps spacing and the marker",
  "lower-casing comes last, after marks, blanks and spacing have been dealt with; that the earlier steps do not depend on case must hold for every text",
  ["src/text.c: read_text, lowercase, compress_spacing", "src/word.c: find_words", "src/stopword.c: init_stopwords", "src/wordfreq.c: main", "src/synctext.c: main"])
p("Synchronizations depend only on which characters are equal",
  "When the characters of all texts are replaced one for one (the reject character staying what it is), all three synchronizations give the very same pieces and matches, editop counts the same insertions, deletions and moves, and accuracy the same characters, errors, rejected characters, suspects, false marks and edit operations: nothing depends on codes, scripts or the order of characters.",
  "all texts (any number of them for the heuristic synchronization), all one-to-one replacements of characters",
  "a comparison other than equality, or a special treatment of some character, would show up only for particular characters in particular contexts",
  ["src/sync.c: synchronize, transpose_sync, fastukk_sync", "src/editop.c: main", "src/accuracy.c: process_synclist"])
p("The work of the optimal synchronization grows with the errors, not with the square of the text",
  "For texts of edit distance D, computing the optimal synchronization of two texts takes exactly D + 1 rows, keeps at most (D + 1)^2 numbers, and compares two characters at most (2 D + 1) times the length of the shorter text; a text compared with itself takes one row, one number and exactly one comparison per character.",
  "all pairs of texts of any lengths",
  "time and memory can be measured on samples only; the bound must hold for every pair of texts",
  ["src/sync.c: compute_f, compute_pathlist, fastukk_sync"])
p("Voters that agree prevail",
  "When all voters but one have the same characters (none of them '~', votes of full weight), these characters are the output of vote, wherever the other voter is named and whatever it contains; likewise when more than half of the voters have the same characters and are named one after the other. With three files, two of which have the same characters, vote without options writes these characters without marks. Named in another order, three of five voters with the same text may lose: \"cdabc\" three times, \"abc\" and \"c\" may give \"c\".",
  "all texts of 2 to 16 voters, all weights and thresholds",
  "the alignment of several texts depends on the positions of repeated substrings in all of them; samples do not show whether equal texts are always cut at the same places",
  ["src/sync.c: synchronize, recursive_sync, longest_match", "src/vote.c: place_vote, winner, perform_vote, main"])
p("Insertions and deletions of editop depend only on how often each character occurs",
  "The insertions reported by editop are, summed over the characters other than '~', the number of times a character occurs more often in the correct text than in the generated text; the deletions are the same with the texts exchanged, plus the number of '~' in the generated text. So the order of the characters of either text does not matter to them, a generated text with the same characters in another order needs moves only, and at least one (for a correct text without '~' editop finds only moves exactly then, and nothing exactly if the texts are the same), and exchanging the texts exchanges insertions and deletions ('~' apart). For a correct text without '~', neither number exceeds the errors that accuracy reports for the same texts. The number of moves is not symmetric: \"abaa\" and \"aabba\".",
  "all pairs of texts",
  "the counts come from a greedy synchronization whose cuts depend on everything in the texts; that the counts nevertheless depend on the numbers of characters only is a statement about all texts and all their permutations",
  ["src/editop.c: count_insertions, count_deletions, main", "src/sync.c: transpose_sync"])
p("The work of sorting and of recognizing words",
  "Sorting n elements calls the comparison routine at least n - 1 and at most n (n - 1) / 2 times, whatever it returns; exactly n (n - 1) / 2 times if the array is in order already (so no bound of the form c n log n holds), and at most n log2 n times if all elements compare equal. wordacc compares only words that occur in both texts: with n0 and n1 of them and r recognized, and D = n0 + n1 - 2 r, it keeps D + 1 rows with (D + 1)(D + 2) / 2 numbers until the matches are read off and makes at least r and at most (2 D + 1) min(n0, n1) comparisons; for a text without errors one row of one number and one comparison for each word.",
  "all arrays and comparison routines; all lists of words within the limit of the program",
  "the number of calls depends on the order of the elements and on the positions of the differences; the claims are about all of them",
  ["src/sort.c: sort, quicksort", "src/wordacc.c: compute_pathlist, compute_f, initial_f"])
p("A character error costs at most three words",
  "If a text differs from the correct text by n errors (characters inserted, deleted or replaced), then all but at most 3 n words of the correct text are found, in order, among the words of the other text; so for the same two files the number of misrecognized words that wordacc reports is at most three times the number of errors that accuracy reports, and no word is misrecognized if there is no error. Three is needed (and five, not three, if characters such as colons and quotation marks were taken for starts of words).",
  "all pairs of texts, all numbers of errors, all Unicode data in which characters between letters or digits of a word do not start words",
  "an error changes which characters are joined to words in front of it and behind it, depending on characters two places away and on any number of marks between; the claim is about every text and every position",
  ["src/word.c: find_words, find_next_boundary, is_word_start", "src/accuracy.c: main", "src/wordacc.c: main"])
p("Layout does not matter",
  "Text files that differ only in their layout - which white characters separate words (tab, carriage return, no-break space, any Unicode separator) and how many, white space at the beginning and end of lines, empty lines, white space and empty lines at the beginning of the file, white space at its end - are read as the same characters with the same marks. accuracy, wordacc (with or without a file of stopwords), editop, wordfreq, ngram, synctext and vote therefore print the same, write the same file or fail with the same message when texts are replaced by texts in another layout. The newline at the end of a file, and the white space between a suspect marker and the end of a line, are not layout.",
  "all files, all sequences of changes of layout, all command lines, all Unicode data in which the suspect marker is visible",
  "the changes may occur at any number of places and meet each other, next to marks, other blanks and line ends; reading looks one character ahead and carries marks over",
  ["src/text.c: read_text, compress_spacing, is_blank", "src/accuracy.c: main", "src/wordacc.c: main", "src/editop.c: main", "src/wordfreq.c: main", "src/ngram.c: main", "src/synctext.c: main", "src/vote.c: main"])
p("An error changes few frequencies",
  "If one of the files given to wordfreq or ngram is replaced by a text that differs from it by n errors (characters inserted, deleted or replaced), then the number of occurrences of any set of words changes by at most 3 n, and that of any set of sequences of N characters by at most N n; in particular no count in the report, where not being listed counts as zero, and not the total, changes by more than that. Both bounds are reached.",
  "all lists of files, all texts, all numbers of errors, all sets of words or sequences, all N from 1 to 3",
  "a statement about every pair of texts at every distance and every set of words; the errors may meet in the same sequences or words",
  ["src/wordfreq.c: main, process_file", "src/ngram.c: main, process_file", "src/word.c: find_words"])
p("synctext shows the errors that accuracy counts",
  "For the same two files synctext (without -H) displays an alignment from whose numbered differences every figure of accuracy's report that depends on where the texts differ can be counted: the errors, the insertions, substitutions and deletions (all, marked and unmarked), the false marks, the characters missed of each kind, and the errors and marked errors of each confusion. With -H, and for any other alignment of the two texts, the differences contain at least as many characters to edit as accuracy reports errors.",
  "all pairs of files, all option settings of synctext for two files, all alignments, all characters and all confusion keys",
  "two programs with separate traversals of the synchronisation must agree for every pair of texts, every wildcard and every mark",
  ["src/synctext.c: main, write_matches, write_differences", "src/accuracy.c: main, process_synclist, make_key, add_ops"])
p("The programs agree about what a file contains",
  "What accuracy says about the contents of its files is what ngram lists for them: Characters is ngram's total for the correct file less its row for '~', the count of each character class entry is the count of its row, Reject Characters is the row for '~' of the generated file and Suspect Markers the total of its marked column less that of '~'. The words in wordacc's two tables are the rows of wordfreq for the correct file, with the same counts, total and number of different words. For a correct text without '~', accuracy and editop insert by the same number more characters than they delete: the difference of the lengths. For any pair of texts the errors of accuracy are at most editop's insertions and deletions and twice the lengths of its moves, and this bound is reached. If editop finds nothing to do, accuracy finds no error; for a correct text without '~' the converse holds too, and both say that the texts have the same characters. In that case wordacc finds the same words in both files and none misrecognized.",
  "all pairs of files, all characters, all words and sets of stopwords, all orders in which the tables are traversed",
  "independent programs with separate counters and tables must agree for every file",
  ["src/accuracy.c: process_synclist", "src/ngram.c: main", "src/wordacc.c: main", "src/wordfreq.c: main", "src/editop.c: main"])
p("A '~' in the correct text stands for any character or none",
  "The errors that accuracy counts, and prints, are exactly the smallest number of characters that must be inserted, deleted or replaced when each '~' of the correct text may stand for any one character or for none: some text that fills in the '~' has that many errors and none has fewer. This is the edit distance of the texts less the number of '~' of the correct text. So, whatever '~' there are, one error more or less in the generated text changes the figure by at most one, the figures for two generated texts differ by at most their distance, putting '~' for a character of the correct text removes one error or none, and every reject of the generated text counts as an error unless a '~' of the correct text stands for it. There are no errors exactly if the generated text fills in the '~' of the correct text.",
  "all pairs of texts with any '~' in either, all ways to fill in the '~', all sequences of edits",
  "a minimum over all fillings and all edit scripts; the program computes it from one alignment in which '~' matches nothing",
  ["src/accuracy.c: process_synclist", "src/sync.c: fastukk_sync"])
p("The tables of sequences of different lengths fit together",
  "What ngram lists for sequences of n + 1 characters of some files accounts for what it lists for n characters: the count of a sequence is the sum of the counts of the sequences that continue it by one more character, plus the number of texts that end with it; it is also the sum over the sequences that precede it by one more character, plus the number of texts that begin with it. The totals differ by the number of texts that have n characters, a marked occurrence stays marked when it is continued, and a table of longer sequences has at least as many rows, but for one for each text. The table for two lots of files together is the sum of their tables, row by row and in the totals.",
  "all lots of files, all lengths n that the option allows, all sequences of values, all orders in which the table lists its entries",
  "relates two runs of the program on arbitrary files, for every sequence that may or may not occur",
  ["src/ngram.c: process_file", "src/ngram.c: add_sequence", "src/ngram.c: write_report"])
with open("/verif/properties.jsonl","w") as f:
    for x in P: f.write(json.dumps(x)+"\n")
print(len(P))
