(** Model of how the programs end: the messages they write to the standard error and their exit status.
    Each program is as in MainIoModel, and errors have, beside the message, the string that is shown with it. *)
From Coq Require Import String.
From Verif Require Import Base CLib Utf8Model TextModel SyncModel CompareModel DoubleModel WordModel UtilModel AccModel AccrptModel
  StopModel WacModel WacrptModel EdoModel EditopModel EditopDebugModel FreqModel NgramModel SynctextModel GroupModel NonstopModel DistModel CiModel
  VoteModel VoteSelModel MainModel MainIoModel.
Local Open Scope Z_scope.
Local Open Scope list_scope.

(** A message of error (without a string), error_string or warning_string. *)
(* Models util.c:265-284 *)
Definition message : Type := (string * option (list Z))%type.

(** How a computation ends: with a result; with a call of error or error_string; or not as the C
    standard describes; or not at all. *)
(* Models util.c:249-284 *)
Inductive fate (A : Type) := Got (a : A) | Error (msg : message) | Undefined (msg : string) | Endless.
Arguments Got {A}. Arguments Error {A}. Arguments Undefined {A}. Arguments Endless {A}.

(** The actions performed, the warnings written, and the end. *)
(* Models util.c:249-284 *)
Definition px (A : Type) : Type := (list action * list message * fate A)%type.
(* Models util.c:249-284 *)
Definition pbind {A B} (m : px A) (k : A -> px B) : px B :=
  let '(acts, ws, e) := m in
  match e with
  | Got a => let '(acts2, ws2, e2) := k a in (acts ++ acts2, ws ++ ws2, e2)
  | Error msg => (acts, ws, Error msg)
  | Undefined msg => (acts, ws, Undefined msg)
  | Endless => (acts, ws, Endless)
  end.
Notation "'let%' p := e 'in' k" := (pbind e (fun p => k)) (at level 200, p pattern, e at level 100, k at level 200, right associativity).
(* Models util.c:249-284 *)
Definition give {A} (a : A) : px A := ([], [], Got a).

(** util.c:265-270 error and 271-277 error_string: they do not return *)
Definition error {A} (msg : string) : px A := ([], [], Error (msg, None)).
Definition error_string {A} (msg : string) (s : list Z) : px A := ([], [], Error (msg, Some s)).
(** util.c:280-284 warning_string *)
Definition warn (l : list (string * list Z)) : px unit := ([], map (fun p => (fst p, Some (snd p))) l, Got tt).

(** Calling a function that may end the program with error, or, for the messages listed, with
    error_string and the string listed. *)
(* Models util.c:265-278 *)
Fixpoint shown_with (msg : string) (l : list (string * list Z)) : option (list Z) :=
  match l with
  | [] => None
  | (m, s) :: l => if string_dec msg m then Some s else shown_with msg l
  end.
(* Models util.c:265-278 *)
Definition call_on {A} (strings : list (string * list Z)) (o : outcome A) : px A :=
  match o with
  | Ok a => give a
  | Fail msg => ([], [], Error (msg, shown_with msg strings))
  | UB msg => ([], [], Undefined msg)
  | OutOfFuel => ([], [], Endless)
  end.
(* Models util.c:265-278 *)
Definition call {A} (o : outcome A) : px A := call_on [] o.
(** A string that may be NULL; where it is shown, it is not. *)
(* Models accrpt.c:246 and 252 *)
Definition text_of (s : option (list Z)) : list Z := match s with Some s => s | None => [] end.

(** A loop *)
(* Models loops over the files, as accci.c:68-69 *)
Fixpoint pxfold {A S} (step : S -> A -> px S) (l : list A) (st : S) : px S :=
  match l with
  | [] => give st
  | x :: l => let% st := step st x in pxfold step l st
  end.

(** What becomes of the process: what it did, what it wrote to the standard error, its exit status. *)
(* Models util.c:249-256 *)
Inductive exit := Status (n : Z) | Undefined_behaviour (msg : string) | Never.
(* Models util.c:249-256 *)
Record final := mkfinal { actions : list action; standard_error : list Z; exits : exit }.

(** util.c:268 and 276: fprintf(stderr, "%s: %s\n", ...) and "%s: %s \"%s\"\n" *)
Definition line_of (exec_name : list Z) (msg : message) : list Z :=
  exec_name ++ bytes ": " ++ bytes (fst msg) ++
  match snd msg with None => [] | Some s => [32; 34] ++ s ++ [34] end ++ [10].
(** util.c:179: fprintf(stderr, "Usage:  %s %s\n", exec_name, usage) *)
Definition usage_line (exec_name : list Z) (usage : string) : list Z :=
  bytes "Usage:  " ++ exec_name ++ [32] ++ bytes usage ++ [10].
(** util.c:44 *)
Definition errstatus : Z := 1.

Section System.
Variable sys : system.

(** util.c:74-87 open_file for reading, with a name *)
Definition open_px (name : list Z) : px (list Z) :=
  match contents sys name with Some f => ([Reads name], [], Got f) | None => error_string "unable to open file" name end.
(** accrpt.c:246,252, wacrpt.c:150, edorpt.c:84: the messages about a report show its name. *)
Definition about (name : list Z) : list (string * list Z) := [("invalid format in"%string, name); ("invalid character in"%string, name)].
Definition reading_px {S} (step : S -> list Z -> outcome S) (st : S) (name : list Z) : px S :=
  let% f := open_px name in call_on (about name) (step st f).

(** printf before the report *)
(* Models vote.c:239, editop.c:53-62 *)
Definition say_px (b : list Z) : px unit := ([Puts None b], [], Got tt).

(** util.c:74-87 open_file for writing, and the writing, as write_io in MainIoModel. *)
Definition write_px (name : option (list Z)) (content : outcome (list Z)) : px unit :=
  match name with
  | None => let% _ := ([Opens None], [], Got tt) in let% c := call content in ([Puts None c], [], Got tt)
  | Some name =>
    if writable sys name then let% _ := ([Opens (Some name)], [], Got tt) in let% c := call content in ([Puts (Some name) c], [], Got tt)
    else error_string "unable to create file" name
  end.
Definition print_px (content : outcome (list Z)) : px unit := write_px None content.

(** util.c:238-246 initialize, 176-184 show_usage, 206-210 in split_option, 249-260 quit and
    terminate, and the rest of main.  The messages before exec_name is set do not occur. *)
Definition run_px (usage : string) (table : list UtilModel.entry) (argv : list (list Z)) (body : list (list Z) -> list var -> px unit) : final :=
  match (let! name := rd "argv[0]" argv 0 in basefilename name) with
  | Ok exec_name =>
    match parse_args true table argv (repeat (None, false) (List.length table)) with
    | Ok Usage => mkfinal [] (usage_line exec_name usage) (Status 0)
    | Ok (InvalidOption arg) => mkfinal [] (line_of exec_name ("invalid option"%string, Some arg)) (Status errstatus)
    | Ok (DuplicateOption arg) => mkfinal [] (line_of exec_name ("duplicate option"%string, Some arg)) (Status errstatus)
    | Ok (Args args vars) =>
      let '(acts, ws, e) := body args vars in
      let warnings := flat_map (line_of exec_name) ws in
      match e with
      | Got _ => mkfinal acts warnings (Status 0)
      | Error msg => mkfinal acts (warnings ++ line_of exec_name msg) (Status errstatus)
      | Undefined msg => mkfinal acts warnings (Undefined_behaviour msg)
      | Endless => mkfinal acts warnings Never
      end
    | Fail msg => mkfinal [] (line_of exec_name (msg, None)) (Status errstatus)
    | UB msg => mkfinal [] [] (Undefined_behaviour msg)
    | OutOfFuel => mkfinal [] [] Never
    end
  | Fail msg => mkfinal [] [] (Undefined_behaviour msg)
  | UB msg => mkfinal [] [] (Undefined_behaviour msg)
  | OutOfFuel => mkfinal [] [] Never
  end.

(** utf8proc; the first contents of local buffers; the order of tables; printf of fractions. *)
Variable uc : unicode_data.
Variable NFC : list Z -> list Z.
Variables junk junk4 line : list Z.
Variable conf_order : list conf -> list conf.
Variable term_order : list term -> list term.
Variable seq_order : list NgramModel.entry -> list NgramModel.entry.
Variable vseq_order : list vseq -> list vseq.
Variables fmt fmt6 fmt8 fmt14 : Z -> Z -> list Z.
Variable fmtd : double -> list Z.
Variable signed_char : bool.

(** accuracy.c:132-148 main, and line 28 *)
Definition accuracy_process (argv : list (list Z)) : final :=
  run_px "correctfile generatedfile [accuracy_report]" [] argv (fun args _ =>
    if (zlen args <? 2) || (3 <? zlen args) then error "invalid number of files"
    else
      let% name := call (rd "argv[0]" args 0) in
      let% f := open_px name in
      let% (text0, header) := call (read_text uc junk junk4 accuracy_opt [] f) in
      if header then error "no correct file specified"
      else
        let% name := call (rd "argv[1]" args 1) in
        let% f := open_px name in
        let% (text1, _) := call (read_text uc junk junk4 accuracy_opt [] f) in
        let% d := call (accuracy_data uc text0 text1) in
        write_px (third args) (write_accrpt uc fmt conf_order d)).

(** accsum.c:33-45 main, and line 27 *)
Definition accsum_process (argv : list (list Z)) : final :=
  run_px "accuracy_report1 accuracy_report2 ... >accuracy_report" [] argv (fun args _ =>
    if zlen args <? 2 then error "not enough input files"
    else
      let% (d, _) := pxfold (reading_px (fun st f => read_accrpt (snd st) (fst st) f)) args (acc_empty, line) in
      print_px (write_accrpt uc fmt conf_order d)).

(** accdist.c:46-56 main, and line 28 *)
Definition accdist_process (argv : list (list Z)) : final :=
  run_px "accuracy_report1 accuracy_report2 ... >xyfile" [] argv (fun args _ =>
    let% (_, t) := pxfold (reading_px acc_page) args ((acc_empty, line), dist_empty) in
    print_px (write_dist fmt6 t)).

(** accci.c:60-72 main, and line 28 *)
Definition accci_process (argv : list (list Z)) : final :=
  run_px "accuracy_report1 accuracy_report2 ... >resultfile" [] argv (fun args _ =>
    if zlen args <? 2 then error "not enough input files"
    else
      let% (st, l) := pxfold (reading_px acc_obs) args ((acc_empty, line), []) in
      let% _ := call (compute_ci l) in
      print_px (CiModel.write_results fmt14 fmtd (bytes "Characters") (bytes "Errors") l (characters (fst st)) (errors (fst st)))).

(** groupacc.c:76-87 main, and line 27 *)
Definition groupacc_process (argv : list (list Z)) : final :=
  run_px "groupfile accuracy_report [groupacc_report]" [] argv (fun args _ =>
    if (zlen args <? 2) || (3 <? zlen args) then error "invalid number of files"
    else
      let% name := call (rd "argv[0]" args 0) in
      let% f := open_px name in
      let% (text, _) := call (read_text uc junk junk4 group_opt [] f) in
      let% name := call (rd "argv[1]" args 1) in
      let% f := open_px name in
      let% (d, _) := call_on (about name) (read_accrpt line acc_empty f) in
      write_px (third args) (GroupModel.write_report uc fmt8 d (map value text))).


(** wordacc.c:264-278 main, line 28, and stopword.c:75; is_stopword is asked after init_stopwords. *)
Definition wordacc_process (argv : list (list Z)) : final :=
  run_px "[-S stopwordfile] correctfile generatedfile [wordacc_report]" [string_option 83] argv (fun args vars =>
    if (zlen args <? 2) || (3 <? zlen args) then error "invalid number of files"
    else
      let% stopwordfilename := call (string_of vars 0) in
      let% stopfile := match stopwordfilename with
                       | Some name => let% f := open_px name in call (Ok (Some f))
                       | None => call (Ok None)
                       end in
      let% stop := call (init_stopwords uc NFC junk junk4 at_start stopfile) in
      let% _ := warn (map (fun key => ("duplicate stopword"%string, key)) (warnings stop)) in
      let% name := call (rd "filename[0]" args 0) in
      let% f := open_px name in
      let% (text, header) := call (read_text uc junk junk4 wordacc_opt [] f) in
      if header then error "no correct file specified"
      else
        let% words0 := call (find_words uc NFC [] (map value text)) in
        let% name := call (rd "filename[1]" args 1) in
        let% f := open_px name in
        let% (text, _) := call (read_text uc junk junk4 wordacc_opt [] f) in
        let% words1 := call (find_words uc NFC [] (map value text)) in
        let% d := call (wordacc (lookup stop) term_order words0 words1) in
        write_px (third args) (write_wacrpt fmt term_order d)).

(** wordaccsum.c:33-45 main, and line 27 *)
Definition wordaccsum_process (argv : list (list Z)) : final :=
  run_px "wordacc_report1 wordacc_report2 ... >wordacc_report" [] argv (fun args _ =>
    if zlen args <? 2 then error "not enough input files"
    else
      let% (d, _) := pxfold (reading_px (fun st f => read_wacrpt (snd st) (fst st) f)) args (wac_empty, line) in
      print_px (write_wacrpt fmt term_order d)).

(** wordaccdist.c:47-57 main, and line 28 *)
Definition wordaccdist_process (argv : list (list Z)) : final :=
  run_px "wordacc_report1 wordacc_report2 ... >xyfile" [] argv (fun args _ =>
    let% (_, t) := pxfold (reading_px wac_page) args ((wac_empty, line), dist_empty) in
    print_px (write_dist fmt6 t)).

(** wordaccci.c:61-73 main, and line 28 *)
Definition wordaccci_process (argv : list (list Z)) : final :=
  run_px "wordacc_report1 wordacc_report2 ... >resultfile" [] argv (fun args _ =>
    if zlen args <? 2 then error "not enough input files"
    else
      let% (st, l) := pxfold (reading_px wac_obs) args ((wac_empty, line), []) in
      let% _ := call (compute_ci l) in
      print_px (CiModel.write_results fmt14 fmtd (bytes "Words") (bytes "Misrecognized") l
                  (wcount (wtotal (fst st))) (wmissed (wtotal (fst st))))).

(** nonstopacc.c:79-91 main, and line 27 *)
Definition nonstopacc_process (argv : list (list Z)) : final :=
  run_px "stopwordfile wordacc_report >xyfile" [] argv (fun args _ =>
    if negb (zlen args =? 2) then error "invalid number of files"
    else
      let% name := call (rd "argv[0]" args 0) in
      let% f := open_px name in
      let% words := call (words_in uc NFC junk junk4 nonstop_opt f) in
      let% name := call (rd "argv[1]" args 1) in
      let% f := open_px name in
      let% (d, _) := call_on (about name) (read_wacrpt line wac_empty f) in
      print_px (Ok (NonstopModel.write_results fmt6 d words))).

(** wordfreq.c:93-105 main, and line 28 *)
Definition wordfreq_process (argv : list (list Z)) : final :=
  run_px "textfile1 textfile2 ... >resultfile" [] argv (fun args _ =>
    if zlen args =? 0 then error "no text files specified"
    else
      let% table := pxfold (reading_px (fun tab f => let! words := words_in uc NFC junk junk4 wordfreq_opt f in
                                                 Ok (count_words tab words))) args [] in
      print_px (FreqModel.write_report term_order table)).

(** editop.c:227-245 main, and line 28 *)
Definition editop_process (argv : list (list Z)) : final :=
  run_px "correctfile generatedfile [editop_report]" [flag_option 68] argv (fun args vars =>
    let% debug := call (flag_of vars 0) in
    if (zlen args <? 2) || (3 <? zlen args) then error "invalid number of files"
    else
      let% name := call (rd "argv[0]" args 0) in
      let% f := open_px name in
      let% (text1, header) := call (read_text uc junk junk4 editop_opt [] f) in
      if header then error "no correct file specified"
      else
        let% name := call (rd "argv[1]" args 1) in
        let% f := open_px name in
        let% (text2, _) := call (read_text uc junk junk4 editop_opt [] f) in
        let% (d, printed) := call (edit_operations_shown debug (map value text1) (map value text2)) in
        let% _ := say_px printed in
        write_px (third args) (write_edorpt d)).

(** editopsum.c:34-46 main, and line 28 *)
Definition editopsum_process (argv : list (list Z)) : final :=
  run_px "editop_report1 editop_report2 ... >editop_report" [] argv (fun args _ =>
    if zlen args <? 2 then error "not enough input files"
    else
      let% (d, _) := pxfold (reading_px (fun st f => read_edorpt (snd st) (fst st) f)) args (edo_empty, line) in
      print_px (write_edorpt d)).

(** editopcost.c:59-74 main, and line 28 *)
Definition editopcost_process (argv : list (list Z)) : final :=
  run_px "editop_report [editop_report2] >xyfile" [] argv (fun args _ =>
    if (zlen args <? 1) || (2 <? zlen args) then error "invalid number of files"
    else
      let% name := call (rd "argv[0]" args 0) in
      let% f := open_px name in
      let% (d, line) := call_on (about name) (read_edorpt line edo_empty f) in
      let% d :=
        if zlen args =? 2 then
          let% name := call (rd "argv[1]" args 1) in
          let% f := open_px name in
          let% (d2, _) := call_on (about name) (read_edorpt line edo_empty f) in
          call (decrement_edodata d d2)
        else call (Ok d) in
      print_px (EdoModel.write_results d)).

(** ngram.c:167-180 main, and line 29 *)
Definition ngram_process (argv : list (list Z)) : final :=
  run_px "[-n 1|2|3] textfile1 textfile2 ... >resultfile" [string_option 110] argv (fun args vars =>
    let% nstring := call (string_of vars 0) in
    if zlen args =? 0 then error "no text files specified"
    else
      let% n := call_on [("invalid value"%string, text_of nstring)] (get_n nstring) in
      let% t := pxfold (reading_px (fun t f => let! (text, _) := read_text uc junk junk4 ngram_opt [] f in
                                           process_text uc (Z.to_nat n) t text)) args (mktable [] 0 0) in
      print_px (NgramModel.write_report seq_order t)).

(** synctext.c:147-177 main, and line 27 *)
Definition synctext_process (argv : list (list Z)) : final :=
  run_px "[-H] [-i] [-s] [-T] textfile1 textfile2 ... >resultfile" [flag_option 72; flag_option 105; flag_option 115; flag_option 84] argv (fun args vars =>
    let% heuristic := call (flag_of vars 0) in
    let% ignore_case := call (flag_of vars 1) in
    let% show_suspect := call (flag_of vars 2) in
    let% transpose := call (flag_of vars 3) in
    if (zlen args <? 2) || (transpose && (2 <? zlen args)) then error "invalid number of text files"
    else
      let% texts := pxfold (reading_px (fun acc f =>
                      let! (text, _) := read_text uc junk junk4 (synctext_opt ignore_case) [] f in
                      Ok (acc ++ [text]))) args [] in
      let values := map (map value) texts in
      if transpose then
        let% (l1, l2) := call (transpose_sync (nth 0 values []) (nth 1 values [])) in
        print_px (let! out1 := write_transposed uc show_suspect l1 (nth 0 texts []) in
                  let! out2 := write_transposed uc show_suspect l2 (nth 1 texts []) in
                  Ok ((out1 ++ out2) ++ write_separator))
      else
        let% l := call (if heuristic || (2 <? zlen args) then synchronize values
                        else fastukk_sync (nth 0 values []) (nth 1 values [])) in
        print_px (let! out1 := write_matches uc show_suspect l texts in
                  let! out2 := write_differences uc show_suspect l (combine args texts) in
                  Ok ((out1 ++ out2) ++ write_separator))).

(** vote.c:310-322 main, and line 29 *)
Definition vote_process (argv : list (list Z)) : final :=
  run_px "[-O] [-o outputfile] [-s m/n] [-w m/n] textfile1 textfile2 ..." [flag_option 68; flag_option 79; string_option 111; string_option 115; string_option 119] argv (fun args vars =>
    let% debug := call (flag_of vars 0) in
    let% optimize := call (flag_of vars 1) in
    let% outputfilename := call (string_of vars 2) in
    let% sfraction := call (string_of vars 3) in
    let% wfraction := call (string_of vars 4) in
    if (zlen args <? MIN_VOTERS) || (MAX_VOTERS <? zlen args) then error "invalid number of voters"
    else
      let% voters := pxfold (fun acc name =>
                       let% f := open_px name in
                       let% (text, _) := call (read_text uc junk junk4 vote_opt [] f) in
                       call (Ok (acc ++ [mkvoter (zlen acc) name text 0]))) args [] in
      let% st := call_on [("invalid weight"%string, text_of wfraction); ("invalid threshold"%string, text_of sfraction)]
                      (set_options signed_char (zlen voters) optimize sfraction wfraction) in
      let% (printed, input) := call (select_voters uc vseq_order debug optimize (actual_voters st) voters) in
      let% _ := say_px printed in
      let% out := call (vote_texts st input) in
      write_px outputfilename (write_text uc out None)).
End System.
