(** Specification of the programs as they are run. *)
From Coq Require Import String.
From Verif Require Import Base CLib Utf8Model TextModel TextSpec WordSpec UtilModel UtilProps ArgsProps MainModel.
Local Open Scope Z_scope.
Local Open Scope list_scope.

(** [argv] is the command line of a program with these options, made of these items (see
    ArgsProps: plain arguments, flags, options with a value). *)
Definition command_line (table : list entry) (items : list item) (argv : list (list Z)) : Prop :=
  exists program, argv = program :: List.concat (map written items) /\ zlen program <= 32768 /\
    items <> [] /\ Forall (allowed table) items /\ no_repeats items /\
    real_args (List.concat (map written items)) /\ zlen (List.concat (map written items)) <= 32766.
(** A flag is given; an option is given with a value. *)
Definition says_flag (items : list item) (c : Z) (b : bool) : Prop := b = true <-> In (Flag c) items.
Definition says_value (items : list item) (c : Z) (v : option (list Z)) : Prop :=
  forall s, v = Some s <-> In (Attached c s) items \/ In (Separate c s) items.

(** The named file has this content. *)
Definition has_file (sys : system) (name content : list Z) : Prop := contents sys name = Some content.

(** What the program leaves when it has printed [printed], and [report] to the file [dest] or, if
    there is none, to the standard output too: nothing else has changed. *)
Definition delivered (sys : system) (dest : option (list Z)) (printed report : list Z) (r : result) : Prop :=
  match dest with
  | None => standard_output r = printed ++ report /\ forall n, files_after r n = contents sys n
  | Some name => standard_output r = printed /\ files_after r name = Some report /\
                 forall n, n <> name -> files_after r n = contents sys n
  end.
Definition can_deliver (sys : system) (dest : option (list Z)) : Prop :=
  match dest with None => True | Some name => writable sys name = true end.
(** The names of an optional third file *)
Definition with_third (names : list (list Z)) (dest : option (list Z)) : list (list Z) :=
  names ++ match dest with None => [] | Some name => [name] end.

(** ** Texts *)

(** A file of text: no header, or a header in front of the text.  A header is a title line and
    further lines up to the second divider. *)
Definition has_header (f body : list Z) : Prop :=
  exists title lines, f = title ++ concat lines ++ divider ++ body /\
    short_line title /\ starts_with title_start title /\ Forall short_line lines /\
    exists l1 l2, lines = l1 ++ divider :: l2 /\ ~ In divider l1 /\ ~ In divider l2.
Definition body_of (f body : list Z) (header : bool) : Prop :=
  if header then has_header f body else ~ starts_with title_start f /\ body = f.

(** A body in UTF-8 stands for the text without suspect markers (they mark the next character),
    with canonical spacing, and in lower case if required. *)
Definition stands_for (uc : unicode_data) (lower : bool) (body : list Z) (t : list char) : Prop :=
  exists cs raw norm, Forall scalar cs /\ body = utf8s cs /\ marked 94 cs raw /\ normalised uc raw norm /\
    t = if lower then map (fun c => mkchar (suspect c) (tolower uc (value c))) norm else norm.
Definition file_text (uc : unicode_data) (lower : bool) (f : list Z) (header : bool) (t : list char) : Prop :=
  exists body, body_of f body header /\ stands_for uc lower body t.

(** ** Reports *)

(** The [k]th line of a report (from 0) is a number, right-justified in 8 columns, three blanks
    and a name. *)
Definition decimal_value (ds : list Z) : Z := fold_left (fun n c => 10 * n + (c - 48)) ds 0.
Definition number_line (n : Z) (name l : list Z) : Prop :=
  exists k ds, ds <> [] /\ Forall (fun c => 48 <= c <= 57) ds /\ decimal_value ds = n /\
    (0 < k -> List.length ds + k = 8)%nat /\ l = repeat 32 k ++ ds ++ bytes "   " ++ name.
Definition line_of (report : list Z) (k : nat) (l : list Z) : Prop :=
  exists before rest, report = concat (map (fun l => l ++ [10]) before) ++ l ++ [10] ++ rest /\
    List.length before = k /\ Forall (fun l => ~ In 10 l) (before ++ [l]).
Definition shows (report : list Z) (k : nat) (name : list Z) (n : Z) : Prop :=
  exists l, line_of report k l /\ number_line n name l.

(** A file whose header, if it has one, is well-formed. *)
Definition regular_file (f : list Z) : Prop := Forall is_byte f /\ exists body header, body_of f body header.

(** ** Words *)

(** The words of a text (UAX #29), for the texts of C35. *)
Definition text_words (uc : unicode_data) (NFC : list Z -> list Z) (t : list char) (words : list (list Z)) : Prop :=
  of_properties extends_follow (map value t) /\
  exists segments, cuts (map value t) segments /\ ends_at word_boundary (map value t) segments /\
    words = words_of uc NFC segments.
(** The words of a file: of the text after its header, in lower case. *)
Definition file_words (uc : unicode_data) (NFC : list Z -> list Z) (f : list Z) (header : bool) (words : list (list Z)) : Prop :=
  exists t, file_text uc true f header t /\ text_words uc NFC t words.

(** The words of a file of stopwords: it has no header and no markers. *)
Definition stop_file_words (uc : unicode_data) (NFC : list Z -> list Z) (f : list Z) (words : list (list Z)) : Prop :=
  exists cs norm, Forall scalar cs /\ f = utf8s cs /\ normalised uc (map (mkchar false) cs) norm /\
    text_words uc NFC (map (fun c => mkchar (suspect c) (tolower uc (value c))) norm) words.
(** The stopwords of wordacc: those of the file named with -S, otherwise the default. *)
Definition stopwords_of (sys : system) (uc : unicode_data) (NFC : list Z -> list Z) (name : option (list Z))
  (words : list (list Z)) : Prop :=
  match name with
  | None => words = StopModel.default_stopword
  | Some n => exists f, has_file sys n f /\ stop_file_words uc NFC f words
  end.

(** ** Programs and their inputs *)

(** [ends_with sys dest printed content res]: [res] is how a program ends that prints [printed],
    and leaves [content], if it can be computed, in [dest] or on the standard output. *)
Definition ends_with (sys : system) (dest : option (list Z)) (content : outcome (list Z * list Z)) (res : outcome ended) : Prop :=
  match content with
  | Ok (printed, c) => exists r, res = Ok (Done r) /\ delivered sys dest printed c r
  | Fail msg => res = Fail msg
  | UB msg => res = UB msg
  | OutOfFuel => res = OutOfFuel
  end.
Definition prints (sys : system) (content : outcome (list Z)) (res : outcome ended) : Prop :=
  match content with
  | Ok c => exists r, res = Ok (Done r) /\ delivered sys None [] c r
  | Fail msg => res = Fail msg
  | UB msg => res = UB msg
  | OutOfFuel => res = OutOfFuel
  end.

(** ** A program run on page after page *)

(** A page: the names of the files with the correct and the generated text and of the report, and
    the contents of the first two. *)
Record page := mkpage { correct_name : list Z; generated_name : list Z; report_name : list Z;
                        correct_file : list Z; generated_file : list Z }.
Definition page_args (p : page) : list (list Z) := [correct_name p; generated_name p; report_name p].

(** A program run for one page after the other, each time on the files the last run has left. *)
Inductive runs (program : system -> list (list Z) -> outcome ended) (name : list Z) : system -> list page -> system -> Prop :=
| runs_end sys : runs program name sys [] sys
| runs_page sys p r pages sys' : program sys (name :: page_args p) = Ok (Done r) ->
    runs program name (mksys (files_after r) (writable sys)) pages sys' ->
    runs program name sys (p :: pages) sys'.

(** The pages can be processed: the input files are there, the reports can be created, their names
    differ from each other and from those of the inputs. *)
Definition pages_ready (sys : system) (pages : list page) : Prop :=
  (forall p, In p pages -> has_file sys (correct_name p) (correct_file p) /\
     has_file sys (generated_name p) (generated_file p) /\ writable sys (report_name p) = true) /\
  NoDup (map report_name pages) /\
  (forall p q, In p pages -> In q pages -> report_name p <> correct_name q /\ report_name p <> generated_name q).
