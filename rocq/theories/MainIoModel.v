(** Model of the programs as they are run, step by step: the files opened, created and written,
    and what is printed, in the order in which it happens. *)
From Coq Require Import String.
From Verif Require Import Base CLib Utf8Model TextModel SyncModel CompareModel DoubleModel WordModel UtilModel AccModel AccrptModel
  StopModel WacModel WacrptModel EdoModel EditopModel EditopDebugModel FreqModel NgramModel SynctextModel GroupModel NonstopModel DistModel CiModel
  VoteModel VoteSelModel MainModel.
Local Open Scope Z_scope.
Local Open Scope list_scope.

(** A step that can be seen from outside: a file is opened for reading; a file is opened for
    writing, which creates or empties it, or (no name) writing to the standard output begins; bytes
    are written. *)
(* Models util.c:74-95 and 238-256 *)
Inductive action := Reads (name : list Z) | Opens (dest : option (list Z)) | Puts (dest : option (list Z)) (b : list Z).

(** A computation with the actions it performs; if it fails, those before the failure. *)
(* Models util.c:74-95 and 238-256 *)
Definition io (A : Type) : Type := (list action * outcome A)%type.
(* Models util.c:74-95 and 238-256 *)
Definition lift {A} (o : outcome A) : io A := ([], o).
(* Models util.c:74-95 and 238-256 *)
Definition ibind {A B} (m : io A) (k : A -> io B) : io B :=
  match snd m with
  | Ok a => (fst m ++ fst (k a), snd (k a))
  | Fail msg => (fst m, Fail msg)
  | UB msg => (fst m, UB msg)
  | OutOfFuel => (fst m, OutOfFuel)
  end.
Notation "'let*' p := e 'in' k" := (ibind e (fun p => k)) (at level 200, p pattern, e at level 100, k at level 200, right associativity).

(** A loop *)
(* Models util.c:74-95 and 238-256 *)
Fixpoint iofold {A S} (step : S -> A -> io S) (l : list A) (st : S) : io S :=
  match l with
  | [] => lift (Ok st)
  | x :: l => let* st := step st x in iofold step l st
  end.

(** How a program ends: it has done its work, or initialize has ended it (UtilModel). *)
(* Models util.c:74-95 and 238-256 *)
Inductive finish := Completed | Halted (p : parsed).

Section System.
Variable sys : system.

(** util.c:74-87 open_file for reading, with a name *)
Definition open_io (name : list Z) : io (list Z) :=
  match contents sys name with Some f => ([Reads name], Ok f) | None => lift (Fail "unable to open file") end.
Definition reading_io {S} (step : S -> list Z -> outcome S) (st : S) (name : list Z) : io S :=
  let* f := open_io name in lift (step st f).

(** printf before the report *)
(* Models vote.c:239, editop.c:53-62 *)
Definition say (b : list Z) : io unit := ([Puts None b], Ok tt).

(** util.c:74-87 open_file for writing, and the writing.  Simplification: the bytes appear in one
    piece after the file has been opened; CrashSpec lets any part of them be there when the
    program is interrupted.  If the report cannot be computed to its end, the part already written
    is left out. *)
Definition write_io (name : option (list Z)) (content : outcome (list Z)) : io unit :=
  match name with
  | None => let* _ := ([Opens None], Ok tt) in let* c := lift content in ([Puts None c], Ok tt)
  | Some name =>
    if writable sys name then let* _ := ([Opens (Some name)], Ok tt) in let* c := lift content in ([Puts (Some name) c], Ok tt)
    else lift (Fail "unable to create file")
  end.
Definition print_io (content : outcome (list Z)) : io unit := write_io None content.

(** util.c:238-246 initialize, and the rest of main. *)
Definition run_io (table : list UtilModel.entry) (argv : list (list Z)) (body : list (list Z) -> list var -> io unit) : io finish :=
  let* name := lift (rd "argv[0]" argv 0) in
  let* _ := lift (basefilename name) in
  let* p := lift (parse_args true table argv (repeat (None, false) (List.length table))) in
  match p with
  | Args args vars => let* _ := body args vars in lift (Ok Completed)
  | _ => lift (Ok (Halted p))
  end.

(** utf8proc; the first contents of local buffers; the order of tables; printf of fractions. *)
Variable uc : unicode_data.
Variable NFC : list Z -> list Z.
Variables junk junk4 line : list Z.
Variable conf_order : list conf -> list conf.
Variable term_order : list term -> list term.
Variable seq_order : list NgramModel.entry -> list NgramModel.entry.
Variable vseq_order : list vseq -> list vseq.
Variables fmt fmt6 fmt8 fmt14 : Z -> Z -> list Z.
Variable fmtd : double -> list Z.
Variable signed_char : bool.

(** accuracy.c:132-148 main *)
Definition accuracy_run (argv : list (list Z)) : io finish :=
  run_io [] argv (fun args _ =>
    if (zlen args <? 2) || (3 <? zlen args) then lift (Fail "invalid number of files")
    else
      let* name := lift (rd "argv[0]" args 0) in
      let* f := open_io name in
      let* (text0, header) := lift (read_text uc junk junk4 accuracy_opt [] f) in
      if header then lift (Fail "no correct file specified")
      else
        let* name := lift (rd "argv[1]" args 1) in
        let* f := open_io name in
        let* (text1, _) := lift (read_text uc junk junk4 accuracy_opt [] f) in
        let* d := lift (accuracy_data uc text0 text1) in
        write_io (third args) (write_accrpt uc fmt conf_order d)).

(** accsum.c:33-45 main *)
Definition accsum_run (argv : list (list Z)) : io finish :=
  run_io [] argv (fun args _ =>
    if zlen args <? 2 then lift (Fail "not enough input files")
    else
      let* (d, _) := iofold (reading_io (fun st f => read_accrpt (snd st) (fst st) f)) args (acc_empty, line) in
      print_io (write_accrpt uc fmt conf_order d)).

(** accdist.c:46-56 main *)
Definition accdist_run (argv : list (list Z)) : io finish :=
  run_io [] argv (fun args _ =>
    let* (_, t) := iofold (reading_io acc_page) args ((acc_empty, line), dist_empty) in
    print_io (write_dist fmt6 t)).

(** accci.c:60-72 main *)
Definition accci_run (argv : list (list Z)) : io finish :=
  run_io [] argv (fun args _ =>
    if zlen args <? 2 then lift (Fail "not enough input files")
    else
      let* (st, l) := iofold (reading_io acc_obs) args ((acc_empty, line), []) in
      let* _ := lift (compute_ci l) in
      print_io (CiModel.write_results fmt14 fmtd (bytes "Characters") (bytes "Errors") l (characters (fst st)) (errors (fst st)))).

(** groupacc.c:76-87 main *)
Definition groupacc_run (argv : list (list Z)) : io finish :=
  run_io [] argv (fun args _ =>
    if (zlen args <? 2) || (3 <? zlen args) then lift (Fail "invalid number of files")
    else
      let* name := lift (rd "argv[0]" args 0) in
      let* f := open_io name in
      let* (text, _) := lift (read_text uc junk junk4 group_opt [] f) in
      let* name := lift (rd "argv[1]" args 1) in
      let* f := open_io name in
      let* (d, _) := lift (read_accrpt line acc_empty f) in
      write_io (third args) (GroupModel.write_report uc fmt8 d (map value text))).


(** wordacc.c:264-278 main; is_stopword (stopword.c) is asked after init_stopwords. *)
Definition wordacc_run (argv : list (list Z)) : io finish :=
  run_io [string_option 83] argv (fun args vars =>
    if (zlen args <? 2) || (3 <? zlen args) then lift (Fail "invalid number of files")
    else
      let* stopwordfilename := lift (string_of vars 0) in
      let* stopfile := match stopwordfilename with
                       | Some name => let* f := open_io name in lift (Ok (Some f))
                       | None => lift (Ok None)
                       end in
      let* stop := lift (init_stopwords uc NFC junk junk4 at_start stopfile) in
      let* name := lift (rd "filename[0]" args 0) in
      let* f := open_io name in
      let* (text, header) := lift (read_text uc junk junk4 wordacc_opt [] f) in
      if header then lift (Fail "no correct file specified")
      else
        let* words0 := lift (find_words uc NFC [] (map value text)) in
        let* name := lift (rd "filename[1]" args 1) in
        let* f := open_io name in
        let* (text, _) := lift (read_text uc junk junk4 wordacc_opt [] f) in
        let* words1 := lift (find_words uc NFC [] (map value text)) in
        let* d := lift (wordacc (lookup stop) term_order words0 words1) in
        write_io (third args) (write_wacrpt fmt term_order d)).

(** wordaccsum.c:33-45 main *)
Definition wordaccsum_run (argv : list (list Z)) : io finish :=
  run_io [] argv (fun args _ =>
    if zlen args <? 2 then lift (Fail "not enough input files")
    else
      let* (d, _) := iofold (reading_io (fun st f => read_wacrpt (snd st) (fst st) f)) args (wac_empty, line) in
      print_io (write_wacrpt fmt term_order d)).

(** wordaccdist.c:47-57 main *)
Definition wordaccdist_run (argv : list (list Z)) : io finish :=
  run_io [] argv (fun args _ =>
    let* (_, t) := iofold (reading_io wac_page) args ((wac_empty, line), dist_empty) in
    print_io (write_dist fmt6 t)).

(** wordaccci.c:61-73 main *)
Definition wordaccci_run (argv : list (list Z)) : io finish :=
  run_io [] argv (fun args _ =>
    if zlen args <? 2 then lift (Fail "not enough input files")
    else
      let* (st, l) := iofold (reading_io wac_obs) args ((wac_empty, line), []) in
      let* _ := lift (compute_ci l) in
      print_io (CiModel.write_results fmt14 fmtd (bytes "Words") (bytes "Misrecognized") l
                  (wcount (wtotal (fst st))) (wmissed (wtotal (fst st))))).

(** nonstopacc.c:79-91 main *)
Definition nonstopacc_run (argv : list (list Z)) : io finish :=
  run_io [] argv (fun args _ =>
    if negb (zlen args =? 2) then lift (Fail "invalid number of files")
    else
      let* name := lift (rd "argv[0]" args 0) in
      let* f := open_io name in
      let* words := lift (words_in uc NFC junk junk4 nonstop_opt f) in
      let* name := lift (rd "argv[1]" args 1) in
      let* f := open_io name in
      let* (d, _) := lift (read_wacrpt line wac_empty f) in
      print_io (Ok (NonstopModel.write_results fmt6 d words))).

(** wordfreq.c:93-105 main *)
Definition wordfreq_run (argv : list (list Z)) : io finish :=
  run_io [] argv (fun args _ =>
    if zlen args =? 0 then lift (Fail "no text files specified")
    else
      let* table := iofold (reading_io (fun tab f => let! words := words_in uc NFC junk junk4 wordfreq_opt f in
                                                 Ok (count_words tab words))) args [] in
      print_io (FreqModel.write_report term_order table)).

(** editop.c:227-245 main *)
Definition editop_run (argv : list (list Z)) : io finish :=
  run_io [flag_option 68] argv (fun args vars =>
    let* debug := lift (flag_of vars 0) in
    if (zlen args <? 2) || (3 <? zlen args) then lift (Fail "invalid number of files")
    else
      let* name := lift (rd "argv[0]" args 0) in
      let* f := open_io name in
      let* (text1, header) := lift (read_text uc junk junk4 editop_opt [] f) in
      if header then lift (Fail "no correct file specified")
      else
        let* name := lift (rd "argv[1]" args 1) in
        let* f := open_io name in
        let* (text2, _) := lift (read_text uc junk junk4 editop_opt [] f) in
        let* (d, printed) := lift (edit_operations_shown debug (map value text1) (map value text2)) in
        let* _ := say printed in
        write_io (third args) (write_edorpt d)).

(** editopsum.c:34-46 main *)
Definition editopsum_run (argv : list (list Z)) : io finish :=
  run_io [] argv (fun args _ =>
    if zlen args <? 2 then lift (Fail "not enough input files")
    else
      let* (d, _) := iofold (reading_io (fun st f => read_edorpt (snd st) (fst st) f)) args (edo_empty, line) in
      print_io (write_edorpt d)).

(** editopcost.c:59-74 main *)
Definition editopcost_run (argv : list (list Z)) : io finish :=
  run_io [] argv (fun args _ =>
    if (zlen args <? 1) || (2 <? zlen args) then lift (Fail "invalid number of files")
    else
      let* name := lift (rd "argv[0]" args 0) in
      let* f := open_io name in
      let* (d, line) := lift (read_edorpt line edo_empty f) in
      let* d :=
        if zlen args =? 2 then
          let* name := lift (rd "argv[1]" args 1) in
          let* f := open_io name in
          let* (d2, _) := lift (read_edorpt line edo_empty f) in
          lift (decrement_edodata d d2)
        else lift (Ok d) in
      print_io (EdoModel.write_results d)).

(** ngram.c:167-180 main *)
Definition ngram_run (argv : list (list Z)) : io finish :=
  run_io [string_option 110] argv (fun args vars =>
    let* nstring := lift (string_of vars 0) in
    if zlen args =? 0 then lift (Fail "no text files specified")
    else
      let* n := lift (get_n nstring) in
      let* t := iofold (reading_io (fun t f => let! (text, _) := read_text uc junk junk4 ngram_opt [] f in
                                           process_text uc (Z.to_nat n) t text)) args (mktable [] 0 0) in
      print_io (NgramModel.write_report seq_order t)).

(** synctext.c:147-177 main *)
Definition synctext_run (argv : list (list Z)) : io finish :=
  run_io [flag_option 72; flag_option 105; flag_option 115; flag_option 84] argv (fun args vars =>
    let* heuristic := lift (flag_of vars 0) in
    let* ignore_case := lift (flag_of vars 1) in
    let* show_suspect := lift (flag_of vars 2) in
    let* transpose := lift (flag_of vars 3) in
    if (zlen args <? 2) || (transpose && (2 <? zlen args)) then lift (Fail "invalid number of text files")
    else
      let* texts := iofold (reading_io (fun acc f =>
                      let! (text, _) := read_text uc junk junk4 (synctext_opt ignore_case) [] f in
                      Ok (acc ++ [text]))) args [] in
      let values := map (map value) texts in
      if transpose then
        let* (l1, l2) := lift (transpose_sync (nth 0 values []) (nth 1 values [])) in
        print_io (let! out1 := write_transposed uc show_suspect l1 (nth 0 texts []) in
                  let! out2 := write_transposed uc show_suspect l2 (nth 1 texts []) in
                  Ok ((out1 ++ out2) ++ write_separator))
      else
        let* l := lift (if heuristic || (2 <? zlen args) then synchronize values
                        else fastukk_sync (nth 0 values []) (nth 1 values [])) in
        print_io (let! out1 := write_matches uc show_suspect l texts in
                  let! out2 := write_differences uc show_suspect l (combine args texts) in
                  Ok ((out1 ++ out2) ++ write_separator))).

(** vote.c:310-322 main *)
Definition vote_run (argv : list (list Z)) : io finish :=
  run_io [flag_option 68; flag_option 79; string_option 111; string_option 115; string_option 119] argv (fun args vars =>
    let* debug := lift (flag_of vars 0) in
    let* optimize := lift (flag_of vars 1) in
    let* outputfilename := lift (string_of vars 2) in
    let* sfraction := lift (string_of vars 3) in
    let* wfraction := lift (string_of vars 4) in
    if (zlen args <? MIN_VOTERS) || (MAX_VOTERS <? zlen args) then lift (Fail "invalid number of voters")
    else
      let* voters := iofold (fun acc name =>
                       let* f := open_io name in
                       let* (text, _) := lift (read_text uc junk junk4 vote_opt [] f) in
                       lift (Ok (acc ++ [mkvoter (zlen acc) name text 0]))) args [] in
      let* st := lift (set_options signed_char (zlen voters) optimize sfraction wfraction) in
      let* (printed, input) := lift (select_voters uc vseq_order debug optimize (actual_voters st) voters) in
      let* _ := say printed in
      let* out := lift (vote_texts st input) in
      write_io outputfilename (write_text uc out None)).
End System.
