(** Model of the programs as they are run: command lines, and files read and written. *)
From Coq Require Import String.
From Verif Require Import Base CLib Utf8Model TextModel SyncModel CompareModel DoubleModel WordModel UtilModel AccModel AccrptModel
  StopModel WacModel WacrptModel EdoModel EditopModel EditopDebugModel FreqModel NgramModel SynctextModel GroupModel NonstopModel DistModel CiModel
  VoteModel VoteSelModel.
Local Open Scope Z_scope.
Local Open Scope list_scope.

(** The files that can be read, with their contents, and the names under which a file can be
    created or overwritten. *)
(* Models util.c:74-87 *)
Definition filesystem : Type := list Z -> option (list Z).
(* Models util.c:74-87 *)
Record system := mksys { contents : filesystem; writable : list Z -> bool }.

(* Models util.c:74-87 *)
Definition update (fs : filesystem) (name content : list Z) : filesystem :=
  fun n => if list_eq_dec Z.eq_dec n name then Some content else fs n.

(** What a program leaves: the standard output, and the files. *)
(* Models util.c:74-87 *)
Record result := mkresult { standard_output : list Z; files_after : filesystem }.

(** How a program ends: it does its work, or initialize ends it (UtilModel). *)
(* Models util.c:173-181 and 238-262 *)
Inductive ended := Done (r : result) | Stopped (p : parsed).

Section System.
Variable sys : system.

(** util.c:74-87 open_file for reading, with a name *)
Definition open_read (name : list Z) : outcome (list Z) :=
  match contents sys name with Some f => Ok f | None => Fail "unable to open file" end.

(** util.c:74-87 open_file for writing (no name: the standard output), and the writing. *)
Definition write_to (name : option (list Z)) (printed : list Z) (content : outcome (list Z)) : outcome result :=
  match name with
  | None => let! c := content in Ok (mkresult (printed ++ c) (contents sys))
  | Some name =>
    if writable sys name then let! c := content in Ok (mkresult printed (update (contents sys) name c))
    else Fail "unable to create file"
  end.
Definition print (content : outcome (list Z)) : outcome result := write_to None [] content.

(** A loop over files which opens each one in its turn. *)
(* Models loops over the files, as accci.c:68-69 *)
Definition reading {S} (step : S -> list Z -> outcome S) (st : S) (name : list Z) : outcome S :=
  let! f := open_read name in step st f.

(** util.c:238-246 initialize, and the rest of main. *)
Definition run_main (table : list UtilModel.entry) (argv : list (list Z)) (body : list (list Z) -> list var -> outcome result)
  : outcome ended :=
  let! name := rd "argv[0]" argv 0 in
  let! _ := basefilename name in
  let! p := parse_args true table argv (repeat (None, false) (List.length table)) in
  match p with
  | Args args vars => let! r := body args vars in Ok (Done r)
  | _ => Ok (Stopped p)
  end.

(** The entries of tables of options: NULL, a string, or a flag. *)
(* Models util.h:101-113 *)
Definition string_option (c : Z) : UtilModel.entry := UtilModel.mkentry c true false.
(* Models util.h:101-113 *)
Definition flag_option (c : Z) : UtilModel.entry := UtilModel.mkentry c false true.
(* Models util.h:101-113 *)
Definition string_of (vars : list var) (i : Z) : outcome (option (list Z)) := let! v := rd "option" vars i in Ok (fst v).
(* Models util.h:101-113 *)
Definition flag_of (vars : list var) (i : Z) : outcome bool := let! v := rd "option" vars i in Ok (snd v).

(** argv[2] if there are three arguments, otherwise NULL *)
(* Models accuracy.c:146, editop.c:243, wordacc.c:276 *)
Definition third (args : list (list Z)) : option (list Z) := nth_error args 2.

(** utf8proc; the first contents of local buffers; the order of tables; printf of fractions. *)
Variable uc : unicode_data.
Variable NFC : list Z -> list Z.
Variables junk junk4 line : list Z.
Variable conf_order : list conf -> list conf.
Variable term_order : list term -> list term.
Variable seq_order : list NgramModel.entry -> list NgramModel.entry.
Variable vseq_order : list vseq -> list vseq.
Variables fmt fmt6 fmt8 fmt14 : Z -> Z -> list Z.
Variable fmtd : double -> list Z.
Variable signed_char : bool.

(** accuracy.c:132-148 main; textopt (accuracy.c:32) has find_hex_values as its fourth
    initialiser, the sixth is missing. *)
Definition accuracy_opt : textopt := mkopt true true 0 true false.
Definition accuracy_main (argv : list (list Z)) : outcome ended :=
  run_main [] argv (fun args _ =>
    if (zlen args <? 2) || (3 <? zlen args) then Fail "invalid number of files"
    else
      let! name := rd "argv[0]" args 0 in
      let! f := open_read name in
      let! (text0, header) := read_text uc junk junk4 accuracy_opt [] f in
      if header then Fail "no correct file specified"
      else
        let! name := rd "argv[1]" args 1 in
        let! f := open_read name in
        let! (text1, _) := read_text uc junk junk4 accuracy_opt [] f in
        let! d := accuracy_data uc text0 text1 in
        write_to (third args) [] (write_accrpt uc fmt conf_order d)).

(** accsum.c:33-45 main *)
Definition accsum_main (argv : list (list Z)) : outcome ended :=
  run_main [] argv (fun args _ =>
    if zlen args <? 2 then Fail "not enough input files"
    else
      let! (d, _) := ofold (reading (fun st f => read_accrpt (snd st) (fst st) f)) args (acc_empty, line) in
      print (write_accrpt uc fmt conf_order d)).

(** accdist.c:46-56 main *)
Definition accdist_main (argv : list (list Z)) : outcome ended :=
  run_main [] argv (fun args _ =>
    let! (_, t) := ofold (reading acc_page) args ((acc_empty, line), dist_empty) in
    print (write_dist fmt6 t)).

(** accci.c:60-72 main *)
Definition accci_main (argv : list (list Z)) : outcome ended :=
  run_main [] argv (fun args _ =>
    if zlen args <? 2 then Fail "not enough input files"
    else
      let! (st, l) := ofold (reading acc_obs) args ((acc_empty, line), []) in
      print (CiModel.write_results fmt14 fmtd (bytes "Characters") (bytes "Errors") l (characters (fst st)) (errors (fst st)))).

(** groupacc.c:76-87 main *)
Definition groupacc_main (argv : list (list Z)) : outcome ended :=
  run_main [] argv (fun args _ =>
    if (zlen args <? 2) || (3 <? zlen args) then Fail "invalid number of files"
    else
      let! name := rd "argv[0]" args 0 in
      let! f := open_read name in
      let! (text, _) := read_text uc junk junk4 group_opt [] f in
      let! name := rd "argv[1]" args 1 in
      let! f := open_read name in
      let! (d, _) := read_accrpt line acc_empty f in
      write_to (third args) [] (GroupModel.write_report uc fmt8 d (map value text))).


(** wordacc.c:38 textopt *)
Definition wordacc_opt : textopt := mkopt true true 0 true true.
(** wordacc.c:264-278 main; is_stopword (stopword.c) is asked after init_stopwords. *)
Definition wordacc_main (argv : list (list Z)) : outcome ended :=
  run_main [string_option 83] argv (fun args vars =>
    if (zlen args <? 2) || (3 <? zlen args) then Fail "invalid number of files"
    else
      let! stopwordfilename := string_of vars 0 in
      let! stopfile := match stopwordfilename with
                       | Some name => let! f := open_read name in Ok (Some f)
                       | None => Ok None
                       end in
      let! stop := init_stopwords uc NFC junk junk4 at_start stopfile in
      let! name := rd "filename[0]" args 0 in
      let! f := open_read name in
      let! (text, header) := read_text uc junk junk4 wordacc_opt [] f in
      if header then Fail "no correct file specified"
      else
        let! words0 := find_words uc NFC [] (map value text) in
        let! name := rd "filename[1]" args 1 in
        let! f := open_read name in
        let! (text, _) := read_text uc junk junk4 wordacc_opt [] f in
        let! words1 := find_words uc NFC [] (map value text) in
        let! d := wordacc (lookup stop) term_order words0 words1 in
        write_to (third args) [] (write_wacrpt fmt term_order d)).

(** wordaccsum.c:33-45 main *)
Definition wordaccsum_main (argv : list (list Z)) : outcome ended :=
  run_main [] argv (fun args _ =>
    if zlen args <? 2 then Fail "not enough input files"
    else
      let! (d, _) := ofold (reading (fun st f => read_wacrpt (snd st) (fst st) f)) args (wac_empty, line) in
      print (write_wacrpt fmt term_order d)).

(** wordaccdist.c:47-57 main *)
Definition wordaccdist_main (argv : list (list Z)) : outcome ended :=
  run_main [] argv (fun args _ =>
    let! (_, t) := ofold (reading wac_page) args ((wac_empty, line), dist_empty) in
    print (write_dist fmt6 t)).

(** wordaccci.c:61-73 main *)
Definition wordaccci_main (argv : list (list Z)) : outcome ended :=
  run_main [] argv (fun args _ =>
    if zlen args <? 2 then Fail "not enough input files"
    else
      let! (st, l) := ofold (reading wac_obs) args ((wac_empty, line), []) in
      print (CiModel.write_results fmt14 fmtd (bytes "Words") (bytes "Misrecognized") l
               (wcount (wtotal (fst st))) (wmissed (wtotal (fst st))))).

(** nonstopacc.c:79-91 main *)
Definition nonstopacc_main (argv : list (list Z)) : outcome ended :=
  run_main [] argv (fun args _ =>
    if negb (zlen args =? 2) then Fail "invalid number of files"
    else
      let! name := rd "argv[0]" args 0 in
      let! f := open_read name in
      let! words := words_in uc NFC junk junk4 nonstop_opt f in
      let! name := rd "argv[1]" args 1 in
      let! f := open_read name in
      let! (d, _) := read_wacrpt line wac_empty f in
      print (Ok (NonstopModel.write_results fmt6 d words))).

(** wordfreq.c:93-105 main *)
Definition wordfreq_main (argv : list (list Z)) : outcome ended :=
  run_main [] argv (fun args _ =>
    if zlen args =? 0 then Fail "no text files specified"
    else
      let! table := ofold (reading (fun tab f => let! words := words_in uc NFC junk junk4 wordfreq_opt f in
                                                 Ok (count_words tab words))) args [] in
      print (FreqModel.write_report term_order table)).

(** editop.c:227-245 main *)
Definition editop_main (argv : list (list Z)) : outcome ended :=
  run_main [flag_option 68] argv (fun args vars =>
    let! debug := flag_of vars 0 in
    if (zlen args <? 2) || (3 <? zlen args) then Fail "invalid number of files"
    else
      let! name := rd "argv[0]" args 0 in
      let! f := open_read name in
      let! (text1, header) := read_text uc junk junk4 editop_opt [] f in
      if header then Fail "no correct file specified"
      else
        let! name := rd "argv[1]" args 1 in
        let! f := open_read name in
        let! (text2, _) := read_text uc junk junk4 editop_opt [] f in
        let! (d, printed) := edit_operations_shown debug (map value text1) (map value text2) in
        write_to (third args) printed (write_edorpt d)).

(** editopsum.c:34-46 main *)
Definition editopsum_main (argv : list (list Z)) : outcome ended :=
  run_main [] argv (fun args _ =>
    if zlen args <? 2 then Fail "not enough input files"
    else
      let! (d, _) := ofold (reading (fun st f => read_edorpt (snd st) (fst st) f)) args (edo_empty, line) in
      print (write_edorpt d)).

(** editopcost.c:59-74 main *)
Definition editopcost_main (argv : list (list Z)) : outcome ended :=
  run_main [] argv (fun args _ =>
    if (zlen args <? 1) || (2 <? zlen args) then Fail "invalid number of files"
    else
      let! name := rd "argv[0]" args 0 in
      let! f := open_read name in
      let! (d, line) := read_edorpt line edo_empty f in
      let! d :=
        if zlen args =? 2 then
          let! name := rd "argv[1]" args 1 in
          let! f := open_read name in
          let! (d2, _) := read_edorpt line edo_empty f in
          decrement_edodata d d2
        else Ok d in
      print (EdoModel.write_results d)).

(** ngram.c:167-180 main *)
Definition ngram_main (argv : list (list Z)) : outcome ended :=
  run_main [string_option 110] argv (fun args vars =>
    let! nstring := string_of vars 0 in
    if zlen args =? 0 then Fail "no text files specified"
    else
      let! n := get_n nstring in
      let! t := ofold (reading (fun t f => let! (text, _) := read_text uc junk junk4 ngram_opt [] f in
                                           process_text uc (Z.to_nat n) t text)) args (mktable [] 0 0) in
      print (NgramModel.write_report seq_order t)).

(** synctext.c:147-177 main *)
Definition synctext_main (argv : list (list Z)) : outcome ended :=
  run_main [flag_option 72; flag_option 105; flag_option 115; flag_option 84] argv (fun args vars =>
    let! heuristic := flag_of vars 0 in
    let! ignore_case := flag_of vars 1 in
    let! show_suspect := flag_of vars 2 in
    let! transpose := flag_of vars 3 in
    if (zlen args <? 2) || (transpose && (2 <? zlen args)) then Fail "invalid number of text files"
    else
      let! texts := ofold (reading (fun acc f =>
                      let! (text, _) := read_text uc junk junk4 (synctext_opt ignore_case) [] f in
                      Ok (acc ++ [text]))) args [] in
      print (synctext_texts uc heuristic show_suspect transpose args texts)).

(** vote.c:310-322 main *)
Definition vote_main (argv : list (list Z)) : outcome ended :=
  run_main [flag_option 68; flag_option 79; string_option 111; string_option 115; string_option 119] argv (fun args vars =>
    let! debug := flag_of vars 0 in
    let! optimize := flag_of vars 1 in
    let! outputfilename := string_of vars 2 in
    let! sfraction := string_of vars 3 in
    let! wfraction := string_of vars 4 in
    if (zlen args <? MIN_VOTERS) || (MAX_VOTERS <? zlen args) then Fail "invalid number of voters"
    else
      let! voters := ofold (fun acc name =>
                       let! f := open_read name in
                       let! (text, _) := read_text uc junk junk4 vote_opt [] f in
                       Ok (acc ++ [mkvoter (zlen acc) name text 0])) args [] in
      let! (printed, out) := vote_voters uc vseq_order signed_char debug optimize sfraction wfraction voters in
      write_to outputfilename printed (write_text uc out None)).
End System.
