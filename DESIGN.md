# A machine-checked model of ocreval in Rocq/Coq 8.16

## Layout

All Coq sources are in `rocq/theories/` (logical name `Verif`), flat:

* `*Model.v`  - executable Gallina model of the C code, function by function; every
  definition cites the file and lines it models and names its simplifications.
* `*Spec.v`   - small independent specifications (what the English property says).
* `*Proof.v`  - lemmas.
* `*Props.v`  - the property theorems, named `Cnn_...` after their property and followed by
  `Print Assumptions`; beside them an `Example` exhibits a concrete non-trivial case meeting
  their hypotheses.  `_partial`: part of the property, what is missing is said there;
  `_refuted`: the property fails outside the range of the other theorems, with a witness.

`properties.jsonl` and `MANIFEST.json` are written by `tools/props.py` and `tools/manifest.py`
(status and notes from `tools/notes.json`); `seeded/LOG.jsonl` logs the wrong programs the
theorems were tested against.

## Conventions of the model

* C `long`/`short`/`int` are unbounded `Z` unless the code's behaviour depends on the
  width, in which case the conversion is written out (`int` results of comparison
  routines, `short` index of `basefilename`, `unsigned short` cells of wordacc).
* Undefined behaviour is an outcome: `outcome A = Ok a | Fail msg | UB msg | OutOfFuel`.
  Reading or writing an array outside its bounds, dereferencing NULL or reading an
  unset variable gives `UB`; `error(...)`/`error_string(...)` give `Fail`.
  Theorems that say "= Ok ..." therefore include memory safety and absence of errors.
* Loops without an evident structural measure run on explicit fuel; exhausting it gives
  `OutOfFuel`, and the theorems exclude it (so they include termination).
* Bytes, code points and C integers are all `Z`.
* `list.c`/`table.c` are modelled at pointer level and proved to refine plain sequences /
  maps; the other modules then use Coq lists for those containers.

## Trusted base

### Kernel and axioms

Coq 8.16.1's kernel (vm_compute is used in some examples and finite checks of tables; coqchk
re-checks them without the VM).  No axioms of our own, no functors, no switched-off checks.
`Print Assumptions` says "Closed under the global context" for all theorems except those about
binary64 arithmetic through Flocq and the real numbers of the standard library:

* `CiProps`: C53_interval, C53_certain, C53_accurate, C53_accci, C53_wordaccci
* `DistProps`: C52_exact, C52_accdist, C52_wordaccdist, C52_negative_missed_refuted,
  C52_large_counts_refuted
* `DistMoreProps`: C52_order, C52_empty_page
* `MainProgProps`: C64_accdist, C64_accci, C64_wordaccdist, C64_wordaccci, C64_missing, C64_read_only
* `VoteFloatProps`: C61_float
* `PctProps`: all C67_ theorems
* `CrashProps`: C68_same, C68_fail, C68_read_only, C68_reads (through accci and wordaccci)
* `PipeProps`: C74_accdist, C74_wordaccdist, C74_accci, C74_wordaccci
* `ExitProps`: C82_ends, C82_missing, C82_uncreatable, C82_reports (through accci and wordaccci)
* `MessageProps`: C83_messages (through accci and wordaccci)
* `WideSumProps`: C84_accdist, C84_wordaccdist, C84_accci, C84_wordaccci

which depend on these axioms of the standard library:

* `ClassicalDedekindReals.sig_not_dec`, `ClassicalDedekindReals.sig_forall_dec`
* `FunctionalExtensionality.functional_extensionality_dep`
* `Classical_Prop.classic`

### What is modelled

Every function of `src/*.c` is modelled, with the exceptions below.

| source | model | remarks |
|---|---|---|
| list.c, table.c | ListModel, TableModel | heap of nodes with pointers, cached arrays, 503 buckets |
| util.c allocate; lookup-or-insert in accrpt.c, wacrpt.c, ngram.c, vote.c, stopword.c, wordacc.c | ClientModel | entries with addresses from an allocator that may fail |
| text.c, word.c append_word and free_word, list_empty, process_file of ngram and wordfreq, strdup in wacrpt.c, on a memory with blocks | MemTextModel, MemWordModel | every access checked to be to an allocated block; the blocks of Term and of tables are not in this memory; utf8proc_NFC returns a new block or NULL; a position in a text during find_words is the list of values from there on |
| editop.c on a memory with blocks | MemEditModel | without the trace of -D |
| sync.c on a memory with blocks | MemSyncModel | items, arrays of substrings, numbers, rows, diagonals; the arrays made by list_in_array are not in this memory |
| sort.c | SortModel | in-place array, any comparison |
| util.c | UtilModel, CompareModel, MainModel | parse_args, split_option, basefilename, temporary files, interrupts, ustrcmp; open_file and initialize in MainModel |
| text.c | Utf8Model, TextModel, ReadProof | bytes to characters and back, headers, spacing, lower case, char_to_string with its buffer |
| sync.c | SyncModel, HeurProof, TransProof, FastukkProof | fastukk_sync, synchronize, transpose_sync |
| charclass.c, word.c, word_break_property.h | CharclassModel, WordTable, WordModel | with their real tables |
| accuracy.c, accrpt.c, accsum.c | AccModel, AccrptModel | the reports as byte streams, the static line buffer with what it held before |
| accdist.c, wordaccdist.c, dist.c | DistModel | binary64 (Flocq) |
| accci.c, wordaccci.c, ci.c | CiModel, DoubleModel | binary64 (Flocq) |
| groupacc.c, nonstopacc.c | GroupModel, NonstopModel | |
| stopword.c, wordacc.c, wacrpt.c, wordaccsum.c | StopModel, LcsModel, WacModel, WacrptModel | 16-bit cells of wordacc |
| wordfreq.c, ngram.c | FreqModel, NgramModel | |
| editop.c, edorpt.c, editopsum.c, editopcost.c | EditopModel, EditopDebugModel (-D), EdoModel | |
| synctext.c | SynctextModel | |
| vote.c | VoteModel, VoteSelModel, VoteFloatModel | |
| printf of percentages | PctModel | all `%w.2f` and `%11.1f` |
| main of all 17 programs | MainModel, MainIoModel | command line, files read and written, standard output; the order of these actions |
| error, error_string, warning_string, quit, usage texts, exit status | ExitModel | the seventeen programs again, with messages |

### What is not modelled

* `close_file` (files are closed when the program ends).  Outside the models of memory (the files
  Mem*.v) `free` does nothing; outside ExitModel error messages are represented by the format string,
  without the file name, and the exit status is left out.
* Allocation failure outside the models of memory (`allocate` ends the program with an error message),
  signals (see C57 for the cleanup they start), and errors when writing to the standard error.
* How much of a report has been written when its computation becomes undefined (`UB`) half-way: MainIoModel leaves the part out. A report
  is never broken off by an error message (C68_fail).
* Other processes changing the files while a program runs; read and write errors after opening.

### Assumptions of the model

* `long`, and `int` where its width does not matter to the code, are unbounded integers; where the
  width matters (comparison results, `short` indices and counters, `unsigned short` cells, scanf of
  longs) the conversion is written out, two's complement.  `char` may be signed or not.  C84 proves that
  the counters of the programs that count stay within 64 bits (WideModel, WideSumModel), so that there the unbounded
  integers are what the program computes.
* Time and memory are not modelled, except that WorkModel counts the comparisons of characters and the
  numbers kept by the optimal synchronization (C89), SortWorkModel the calls of the comparison routine of
  sort, and WordWorkModel the comparisons of words and the numbers kept by wordacc (C92).
* The medians and distances of vote -O are exact numbers in VoteSelModel and in the theorems on the
  program (C64); VoteFloatModel has them as binary32 and binary64, and C61_float proves that both
  give the same output for texts of fewer than 2^22 characters.
* `double` is IEEE binary64, round to nearest even, evaluated without excess precision
  (FLT_EVAL_METHOD 0); `sqrt` is correctly rounded; constants are the nearest doubles.
* printf of percentages (`%8.2f` and the like) is an arbitrary function of the numbers in the models of
  the programs, `pct_ok` where the column must be readable again; PctModel gives it (nearest decimal to
  the exact value of the double, as glibc), and C67_columns proves `pct_ok` of it; `%ld` and `sscanf` are modelled in CLib from the C standard.
* utf8proc: iterate and encode_char as RFC 3629 (Utf8Model); the general category, tolower and NFC are
  arbitrary functions, with the conditions a theorem names (`nul_hidden`: NUL is not graphic;
  `marks_wide`: no ASCII character is a combining mark; lower case of a scalar value is one).
* Outside list.c and table.c, lists are Coq lists and hash tables are finite maps; the order in which
  table_in_array yields the entries is an arbitrary permutation (`order`).  ListProps and TableProps
  prove that the C containers behave so, and ClientProps (C71) that the programs' uses of the tables do.
* Uninitialised local buffers have arbitrary contents (`junk`, `line`).

## Plan per property

| id | model | proof |
|----|-------|-------|
| C01-C03 | `list.c` on a heap of (prev,next) nodes and list headers | doubly-linked-list invariant relating heap to sequence; induction over histories |
| C04-C05 | `table.c` over 503 list headers in the same heap | bucket invariant, refinement to an association sequence |
| C06 | `sort.c` on an in-place array, arbitrary comparator | partition invariant, induction on segment length; two runs in step (`SortMoreProps`) |
| C07 | comparators with `int` truncation | order laws; `_refuted` for differences beyond int |
| C08,C09 | `read_contents`, utf8proc_iterate/encode | decode/encode inverse; inductive spec of the UTF-8 language |
| C10,C11 | `compress_spacing` | invariant + functional spec by gaps |
| C12-C14 | `read_text`, `read_header`, `write_text` | composition |
| C15,C16 | `char_to_string`, `read_char` | case analysis; `_refuted` for suspect U+10FFFE/F overflow |
| C17-C20 | `fastukk_sync` | existence of a live optimal state in every row; dead-diagonal invariant for all pruning rules |
| C21,C22 | `synchronize` | longest_match maximality; non-extendability invariant gives termination |
| C23,C24 | `transpose_sync` | measure = unmatched characters; pairing invariant |
| C25-C28 | `process_synclist`, `make_key` | folds over the sync list + C19 |
| C29-C31 | `accrpt.c` on byte streams with the persistent 100-byte line buffer | parse/print lemmas; `_refuted` for wide columns and crafted indices |
| C32 | `charclass.c` with its real table | loop invariant, finite checks of the table |
| C33-C36 | `word.c` with its real table | binary search; UAX#29 spec as boundary predicate |
| C37-C40 | `wordacc.c` | as C19, for insert/delete distance; counting folds |
| C41 | `wacrpt.c` | as C29 |
| C42 | `stopword.c`; the choice of stopwords on wordacc as modelled for C38 | table refinement; C38's figures for two predicates on the same marks |
| C43,C44 | `editop.c` | permutation invariant on match numbers |
| C45,C46 | `edorpt.c`, `editopcost.c` | parse/print lemmas; summation by parts; the shape of the curve of costs and costs of sums (`CostProps`) |
| C47-C49 | `vote.c` | measure = remaining characters; self-synchronisation |
| C50,C51 | `ngram.c`, `wordfreq.c` | key injectivity; table refinement |
| C52,C53 | `dist.c`, `ci.c` | Flocq binary64; rounding analysis |
| C54,C55 | `nonstopacc.c`, `groupacc.c` | folds |
| C56-C58 | `util.c` | list recursion, history induction |
| C59 | `synctext.c` | structural induction on the sync list; `_refuted` for braces in texts |
| C60 | `editop.c` | gain of a move = runs saved; loop invariants of find_candidates/find_move |
| C61 | `vote.c` -O | folds over tables; insertion of the median; stability by sorting keys; float arithmetic exact on multiples of 1/2 |
| C62-C64 | all `main`s on a map of files | composition of the above with C56 |
| C65 | sequences of runs | induction over pages, frame conditions on the files |
| C66 | display and the traced count_moves | the invariant of C60; places of runs are the numbers of the blocks |
| C67 | printf of doubles, percentages in reports | error of one division against the distance of a fraction from a tie; integers at the end |
| C68 | actions of the 17 mains in order | one shape of all runs (read and print, open, write); no report computation ends in an error message; agreement with MainModel |
| C69 | mains of ngram, wordfreq, synctext, vote, editop | composition of C64 with the claims on each; pieces instead of items |
| C70 | two runs of a main, on two systems | reading does not look at stale bytes; reports are functions of figures and marks, not of the order of a table; C30, C41, C50, C51, C61 |
| C71 | lookup-or-insert of accrpt.c, wacrpt.c, ngram.c, vote.c, stopword.c, wordacc.c on the heap of TableModel; allocate | simulation of the list models by the pointer structures, invariant linking addresses, keys and fields |
| C72 | accuracy_data, wordacc (C25, C38) and the main of accuracy | Errors is the edit distance: triangle inequality by composing edit scripts, splitting and reversing them; common part of two subsequences |
| C73 | text.c, word.c, list.c on a memory with allocation and release (MemTextModel, MemWordModel) | simulation of the list models (TextModel, WordModel): the list presents its blocks, new blocks were free, other blocks unchanged; induction over characters, words and files |
| C74 | accuracy/wordacc run on page after page, then accdist, accci, wordaccdist, wordaccci, groupacc, nonstopacc on the reports (PipeSpec) | composition of the theorems on the single programs over the file system left by the first; the items of the synchronization give an alignment, the figures of the words give the counts of remaining words |
| C75 | char_to_string, encode_or_die and the tests of categories (text.c) | case analysis on the category; hexadecimal numerals by their value and leading digit; first bytes of UTF-8 and of escapes differ |
| C76 | editop run on page after page, then editopsum and editopcost (EditPipeSpec) | composition over the file system; records of moves of several pages concatenate, costs add up |
| C77 | cstring_to_text (text.c) on a string with its NUL; decoded part of a string (StringSpec) | the decoder cannot pass the NUL since it is no continuation byte; induction over the string; uniqueness of the decoding |
| C78 | sync.c on linked lists with allocation and release of items, arrays, numbers, rows and diagonals (MemSyncModel) | simulation of the list models (SyncModel), which never match an item twice; footprint relation (blocks owned before and after a step, everything else unchanged) composed over the recursion, the search of transpose_sync and the rows of fastukk_sync |
| C79 | write_accrpt, write_wacrpt, write_edorpt against lines described by parts in columns (LayoutSpec) | composition of lines from padded fields; rows by filtering ranges, sorted tables by C06/C07; uniqueness of numerals and of the decomposition into lines |
| C80 | editop.c on the memory of C78: discarding, joining and moving items, array of candidates (MemEditModel) | simulation of EditopModel under the invariant that the numbers are 1..n (C44), with the footprint relation of C78; the reference item of a move is the one the array names, by distinctness of numbers |
| C81 | the recursive functions with the depth of their calls (DepthModel) | the fuel of the models bounds the depth; sizes of the parts after partitioning; induction on sorted arrays for the lower bound; halving of the range for the search |
| C82 | error, error_string, warning_string, quit, the usage line and the seventeen mains with them (ExitModel) | forgetting the messages gives the runs of C68; a predicate for what has been read, warned about and blamed is kept through every step of each main; comparison of two runs in systems that differ in one file |
| C83 | the reasons for every message of the seventeen programs (MessageSpec), on the model of C82 | a Hoare logic for processes in which every failure must give its reason; for each called function, that it does not fail, or why; a first bad place exists in a text that is rejected |
| C84 | the counting functions once more, with every addition to a long checked (WideModel; WideSumModel for the programs that read reports) | bounds on every figure kept through the loops, in terms of the characters, words or blocks not yet counted; then the checks never fail and both models agree |
| C85 | find_words, words_in and wordfreq as modelled for C35, C36, C51; reading of files as for C08-C13 | the segments of the two parts with the separator between them satisfy the conditions that determine the segments of the whole (uniqueness of cuts); compress_spacing on values is split at a newline by induction |
| C86 | accuracy_data, process_text of ngram, words_in, wordfreq, editop, read_text as modelled for C08-C13, C20-C24, C36, C51-C53 | a relation between the states of the two runs, kept by every step (simulation), through the text without marks; the bytes of a UTF-8 text without circumflexes are the bytes of its characters without circumflexes |
| C87 | read_text, words_in, init_stopwords, wordfreq, synctext as modelled for C08-C14, C42, C51, C59 | each step of read_text commutes with lower-casing (induction over the text), so the result is a function of the lower-cased characters |
| C88 | SyncModel, EditopModel, AccModel | every function of the model commutes with the replacement (induction on fuel); for accuracy a relation between the states of the two runs |
| C89 | WorkModel (SyncModel.compute_pathlist with a count of comparisons) | on every diagonal the position compared next never decreases, so no pair of positions is compared twice, and only diagonals within D of the main one are visited |
| C90 | SyncModel.synchronize, VoteModel | the match that is kept is the first occurrence in the agreed text, so that all agreeing streams are cut at the same places; then the agreed choice has more than half of the weight in each round (C47_majority) |
| C91 | EditopModel.edit_operations, SyncModel.transpose_sync | matched parts are permutations of each other (C43), unmatched parts share no character but '~' (C24); so each unmatched part is the surplus of its text |
| C92 | SortModel, LcsModel with counters | the count is erased to the models of C06 and C37; each comparison of sort shortens the unsorted part by one; on each diagonal the next visit starts beyond the failed comparison, because the furthest point grows with the number of steps |
| C93 | WordModel, AccModel, WacModel and the two mains | boundaries two main characters away from an edit do not change, and those nearer change only next to a separator; the segments before and after are the same by uniqueness of cuts; edits one after another by common subsequences (C72) |
| C94 | TextModel and the mains of seven programs (MainModel) | replacing the rest of a text keeps what is read from the part before it (a context lemma for the loop with one character of lookahead); equivalence generated by the changes; relation between the ends of a program in two file systems |
| C95 | FreqModel, NgramModel, WordModel, on the reports of C50 and C51 | words by the common subsequence of C93 in both directions; sequences by bounding those that cross a place of the text, one edit after another |
| C96 | SynctextModel and AccModel together | the steps of the displayed alignment are the unmatched groups of the synchronisation that accuracy counts; any alignment gives a sequence of edits, so it is bounded below by the distance |
| C97 | AccModel, NgramModel, WacModel, FreqModel and EditopModel together | each side reduced to the number of characters or words of the text with a property; balance of insertions by summing over groups, and over matched and unmatched parts; the script of editop as edits (`BoundProps`, `BoundProgProps`), and from no errors to no operations and no misrecognized words (`PerfectProps`, `PerfectWordProps`) |
| C98 | AccModel, SyncModel; MainModel for the program | every group saves exactly one error for each of its '~', and matches contain none, so errors = distance - number of '~'; edit scripts correspond to scripts with wildcards one to one |
| C99 | NgramModel, TextModel | the sequences of n characters are the beginnings of those of n + 1 and the end of the text; sums over rows chosen by their values are counts of the sequences so chosen |
