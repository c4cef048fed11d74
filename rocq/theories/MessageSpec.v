(** Specification: what the messages of the programs mean. *)
From Coq Require Import String.
From Verif Require Import Base CLib Utf8Model TextModel TextSpec Utf8Proof ReportSpec AccrptSpec WacrptSpec EdoSpec LcsSpec WordModel UtilModel MainModel MainIoModel
  CiModel CompareModel AccModel AccSpec VoteProps CrashSpec ExitModel ExitSpec.
Local Open Scope Z_scope.
Local Open Scope list_scope.

(** ** What is wrong with a text *)

(** The first byte [b] of a character says that it has [n] bytes. *)
Definition leads (b n : Z) : Prop :=
  (0 <= b <= 127 /\ n = 1) \/ (192 <= b <= 223 /\ n = 2) \/ (224 <= b <= 239 /\ n = 3) \/ (240 <= b <= 247 /\ n = 4).

(** What is wrong with the bytes, where a character should start. *)
Inductive malformed : string -> list Z -> Prop :=
| Bad_lead b r : (128 <= b <= 191 \/ 248 <= b) -> malformed "invalid UTF-8 character" (b :: r)
| Cut_short b r n : leads b n -> zlen (b :: r) < n -> malformed "unexpected end of input" (b :: r)
| Bad_bytes b r n : leads b n -> n <= zlen (b :: r) -> (forall c, scalar c -> utf8 c <> firstn (Z.to_nat n) (b :: r)) ->
    malformed "Invalid UTF-8 string was supplied" (b :: r).

(** Some characters, and then something malformed; if the text may have a header, this may be
    what follows the header. *)
Definition bad_bytes (msg : string) (f : list Z) : Prop :=
  exists cs rest, Forall scalar cs /\ f = utf8s cs ++ rest /\ malformed msg rest.
Definition bad_text (headers : bool) (msg : string) (f : list Z) : Prop :=
  bad_bytes msg f \/ headers = true /\ starts_with title_start f /\ exists head body, f = head ++ body /\ bad_bytes msg body.

(** ** Reasons: for the list of files that have been read, a message, and the string shown *)
Definition reason : Type := list (list Z) -> string -> option (list Z) -> Prop.
Definition either (r r' : reason) : reason := fun l msg arg => r l msg arg \/ r' l msg arg.
Infix "or_else" := either (at level 60, right associativity).

(** The number of arguments, before anything is read. *)
Inductive wrong_number (ok : Prop) (m : string) : reason :=
| Wrong_number : ~ ok -> wrong_number ok m [] m None.

Section System.
Variable sys : system.

(** The next file does not exist, or the file for the report cannot be written. *)
Inductive no_file (p : plan) : reason :=
| Missing l s later : reading p = l ++ s :: later -> contents sys s = None -> no_file p l "unable to open file"%string (Some s)
| Locked s : destination p = Some s -> writable sys s = false -> no_file p (reading p) "unable to create file"%string (Some s).

(** The last file that was read is one of the texts, and it is not UTF-8. *)
Inductive undecodable (headers : bool) (texts : list (list Z)) : reason :=
| Undecodable before s f msg : In s texts -> contents sys s = Some f -> bad_text headers msg f -> undecodable headers texts (before ++ [s]) msg None.

(** A row of the table of characters, with two numbers, that shows no character where a report
    has one: after 29 bytes, within braces. *)
Definition no_character (l : list Z) : Prop :=
  (exists s, ReportSpec.text_of l s /\ numbers 2 s) /\
  forall uc v pre shown more, nul_hidden uc -> marks_wide uc -> scalar v -> char_string uc v = Ok shown -> zlen pre = 29 ->
    l <> pre ++ bytes "{" ++ shown ++ bytes "}" ++ more.

(** The last file that was read is one of the reports, and it does not start as one; or, for
    accuracy reports, it does but has a row without a character. *)
Inductive not_report (header : list want) (reports : list (list Z)) : reason :=
| Not_report before s f : In s reports -> contents sys s = Some f -> ~ shaped header f -> not_report header reports (before ++ [s]) "invalid format in"%string (Some s).
Inductive bad_character (reports : list (list Z)) : reason :=
| Bad_character before s f : In s reports -> contents sys s = Some f -> shaped accuracy_header f ->
    (exists ls l rest, takes_all f (ls ++ [l]) rest /\ no_character l) -> bad_character reports (before ++ [s]) "invalid character in"%string (Some s).

(** The first file has a header, so it is not a correct text. *)
Inductive has_header (s : list Z) (before : list (list Z)) : reason :=
| Has_header f : contents sys s = Some f -> starts_with title_start f -> has_header s before (before ++ [s]) "no correct file specified"%string None.

(** The number on the third line of a report is the number of characters, or words. *)
Definition third_number (f : list Z) (n : Z) : Prop :=
  exists l1 l2 l3 rest s more, takes_all f [l1; l2; l3] rest /\ ReportSpec.text_of l3 s /\ scan_long s = Some (n, more).
(** At most one of the reports has any characters (or words). *)
Inductive few_observations (names : list (list Z)) : reason :=
| Few_observations ns : Forall2 (fun s n => exists f, contents sys s = Some f /\ third_number f n) names ns ->
    zlen (filter (fun n => 0 <? n) ns) < 2 -> few_observations names names "not enough observations"%string None.

Variable uc : unicode_data.
Variable NFC : list Z -> list Z.
Variables junk junk4 : list Z.

(** The text, or the words, that a program reads from a file. *)
Definition read_as (opt : textopt) (n : list Z) (t : list Z) : Prop :=
  exists f text h, contents sys n = Some f /\ read_text uc junk junk4 opt [] f = Ok (text, h) /\ t = map value text.
Definition words_as (opt : textopt) (n : list Z) (ws : list (list Z)) : Prop :=
  exists t, read_as opt n t /\ find_words uc NFC [] t = Ok ws.

(** The first of the two texts has more than LONG_MAX = 2^63 - 1 characters; or more than 65535 of
    its words occur in the second one. *)
Inductive too_long (opt : textopt) (names : list (list Z)) : reason :=
| Too_long s t : nth_error names 0 = Some s -> read_as opt s t -> 9223372036854775807 < zlen t -> too_long opt names names "text stream is too long"%string None.
Inductive too_many_words (opt : textopt) (before : list (list Z)) : list (list Z) -> reason :=
| Too_many_words s s' ws ws' : words_as opt s ws -> words_as opt s' ws' -> 65535 < zlen (shared ws ws') ->
    too_many_words opt before [s; s'] (before ++ [s; s']) "text stream is too long"%string None.

(** The value of an option is not one of those allowed. *)
Inductive bad_value (m : string) (ok : list Z -> Prop) (v : option (list Z)) (l : list (list Z)) : reason :=
| Bad_value s : v = Some s -> ~ ok s -> bad_value m ok v l l m (Some s).
End System.

(** ** The programs *)
Section Programs.
Variable sys : system.
Variable uc : unicode_data.
Variable NFC : list Z -> list Z.
Variables junk junk4 : list Z.

Definition accuracy_reasons (args : list (list Z)) (vars : list var) : reason :=
  wrong_number (2 <= zlen args <= 3) "invalid number of files" or_else no_file sys (two_files args vars) or_else undecodable sys true (firstn 2 args) or_else
  has_header sys (hd [] args) [] or_else too_long sys uc junk junk4 accuracy_opt (firstn 2 args).
Definition accsum_reasons (args : list (list Z)) (vars : list var) : reason :=
  wrong_number (2 <= zlen args) "not enough input files" or_else no_file sys (all_files args vars) or_else not_report sys accuracy_header args or_else bad_character sys args.
Definition accdist_reasons (args : list (list Z)) (vars : list var) : reason :=
  no_file sys (all_files args vars) or_else not_report sys accuracy_header args or_else bad_character sys args.
Definition accci_reasons (args : list (list Z)) (vars : list var) : reason :=
  accsum_reasons args vars or_else few_observations sys args.
Definition groupacc_reasons (args : list (list Z)) (vars : list var) : reason :=
  wrong_number (2 <= zlen args <= 3) "invalid number of files" or_else no_file sys (two_files args vars) or_else undecodable sys false (firstn 1 args) or_else
  not_report sys accuracy_header (skipn 1 args) or_else bad_character sys (skipn 1 args).
Definition wordacc_reasons (args : list (list Z)) (vars : list var) : reason :=
  let stopwords := match value_of vars 0 with Some s => [s] | None => [] end in
  wrong_number (2 <= zlen args <= 3) "invalid number of files" or_else no_file sys (wordacc_files args vars) or_else
  undecodable sys false stopwords or_else undecodable sys true (firstn 2 args) or_else
  has_header sys (hd [] args) stopwords or_else too_many_words sys uc NFC junk junk4 wordacc_opt stopwords (firstn 2 args).
Definition wordaccsum_reasons (args : list (list Z)) (vars : list var) : reason :=
  wrong_number (2 <= zlen args) "not enough input files" or_else no_file sys (all_files args vars) or_else not_report sys word_header args.
Definition wordaccdist_reasons (args : list (list Z)) (vars : list var) : reason :=
  no_file sys (all_files args vars) or_else not_report sys word_header args.
Definition wordaccci_reasons (args : list (list Z)) (vars : list var) : reason :=
  wordaccsum_reasons args vars or_else few_observations sys args.
Definition nonstopacc_reasons (args : list (list Z)) (vars : list var) : reason :=
  wrong_number (zlen args = 2) "invalid number of files" or_else no_file sys (all_files args vars) or_else undecodable sys false (firstn 1 args) or_else
  not_report sys word_header (skipn 1 args).
Definition wordfreq_reasons (args : list (list Z)) (vars : list var) : reason :=
  wrong_number (1 <= zlen args) "no text files specified" or_else no_file sys (all_files args vars) or_else undecodable sys true args.
Definition editop_reasons (args : list (list Z)) (vars : list var) : reason :=
  wrong_number (2 <= zlen args <= 3) "invalid number of files" or_else no_file sys (two_files args vars) or_else undecodable sys true (firstn 2 args) or_else
  has_header sys (hd [] args) [].
Definition editopsum_reasons (args : list (list Z)) (vars : list var) : reason :=
  wrong_number (2 <= zlen args) "not enough input files" or_else no_file sys (all_files args vars) or_else not_report sys edit_header args.
Definition editopcost_reasons (args : list (list Z)) (vars : list var) : reason :=
  wrong_number (1 <= zlen args <= 2) "invalid number of files" or_else no_file sys (all_files args vars) or_else not_report sys edit_header args.
Definition ngram_reasons (args : list (list Z)) (vars : list var) : reason :=
  wrong_number (1 <= zlen args) "no text files specified" or_else
  bad_value "invalid value" (fun s => s = bytes "1" \/ s = bytes "2" \/ s = bytes "3") (value_of vars 0) [] or_else
  no_file sys (all_files args vars) or_else undecodable sys true args.
Definition synctext_reasons (args : list (list Z)) (vars : list var) : reason :=
  let flag i := snd (nth i vars (None, false)) in
  wrong_number (2 <= zlen args /\ (flag 3%nat = true -> zlen args = 2)) "invalid number of text files" or_else
  no_file sys (all_files args vars) or_else undecodable sys true args or_else
  (fun l msg arg => l = args /\ msg = "invalid number of text streams"%string /\ arg = None /\ 16 < zlen args) or_else
  (fun l msg arg => flag 0%nat = false /\ flag 3%nat = false /\ zlen args = 2 /\ too_long sys uc junk junk4 (SynctextModel.synctext_opt (flag 1%nat)) args l msg arg).
Definition vote_reasons (args : list (list Z)) (vars : list var) : reason :=
  wrong_number (2 <= zlen args <= 16) "invalid number of voters" or_else no_file sys (vote_files args vars) or_else undecodable sys true args or_else
  bad_value "invalid weight" (fun s => exists m n, fraction s m n) (value_of vars 4) args or_else
  bad_value "invalid threshold" (fun s => exists m n, fraction s m n) (value_of vars 3) args.
End Programs.

(** ** A process that ends with status 1 *)

Definition files_read (acts : list action) : list (list Z) := flat_map (fun a => match a with Reads n => [n] | _ => [] end) acts.

(** It says that an option is invalid or given twice, and that is so; or the last line it writes
    to the standard error is a message for one of the reasons, for the files it has read. *)
Definition says_why (table : list UtilModel.entry) (reasons : list (list Z) -> list var -> reason) (argv : list (list Z)) (name : list Z) (e : final) : Prop :=
  exits e = Status 1 ->
  match parse_args true table argv (repeat (None, false) (List.length table)) with
  | Ok (InvalidOption arg) => standard_error e = said name "invalid option" (Some arg)
  | Ok (DuplicateOption arg) => standard_error e = said name "duplicate option" (Some arg)
  | Ok (Args args vars) => exists before msg arg, standard_error e = before ++ said name msg arg /\ reasons args vars (files_read (actions e)) msg arg
  | _ => False
  end.
