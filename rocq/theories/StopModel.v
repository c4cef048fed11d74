(** Model of stopword.c: the table of stopwords. *)
From Coq Require Import String.
From Verif Require Import Base CLib Utf8Model TextModel WordModel.
Local Open Scope Z_scope.
Local Open Scope list_scope.

(** stopword.c:41-65 default_stopword *)
Definition default_stopword : list (list Z) := map bytes
  ["a"; "about"; "after"; "all"; "also"; "an"; "and"; "any"; "are"; "as";
   "at"; "back"; "be"; "because"; "been"; "but"; "by"; "can"; "could"; "did";
   "do"; "does"; "down"; "each"; "first"; "for"; "from"; "get"; "good"; "had";
   "has"; "have"; "he"; "her"; "him"; "his"; "how"; "i"; "if"; "in";
   "into"; "is"; "it"; "its"; "just"; "know"; "like"; "little"; "long"; "made";
   "make"; "man"; "many"; "may"; "me"; "more"; "most"; "my"; "new"; "no";
   "not"; "now"; "of"; "on"; "one"; "only"; "or"; "other"; "our"; "out";
   "over"; "said"; "same"; "see"; "she"; "so"; "some"; "than"; "that"; "the";
   "their"; "them"; "then"; "there"; "these"; "they"; "this"; "to"; "too"; "two";
   "up"; "us"; "used"; "very"; "was"; "way"; "we"; "were"; "what"; "when";
   "where"; "which"; "who"; "why"; "will"; "with"; "woman"; "would"; "you"; "your"]%string.

(** stopword.c:29-39: the static data.  The table is the list of the keys in it (C04: a
    table behaves as a map); [warnings] are the keys of the warnings written to stderr. *)
Record stopwords := mkstop { initialized : bool; keys : list (list Z); warnings : list (list Z) }.
Definition at_start : stopwords := mkstop false [] [].

(** table_lookup(&stopwordtable, key) != NULL *)
(* Models stopword.c:73 and 112 *)
Definition lookup (s : stopwords) (key : list Z) : bool :=
  existsb (fun k => streq k key) (keys s).

(** stopword.c:69-82 save_stopword *)
Definition save_stopword (s : stopwords) (key : list Z) : stopwords :=
  if lookup s key
  then mkstop (initialized s) (keys s) (warnings s ++ [key])
  else mkstop (initialized s) (key :: keys s) (warnings s).

Section Files.
(** utf8proc, and the initial contents of local buffers in read_text. *)
Variable uc : unicode_data.
Variable NFC : list Z -> list Z.
Variables junk junk4 : list Z.

(** read_text then find_words, into a text and a list of words that are empty. *)
(* Models stopword.c:94-95 *)
Definition words_in (opt : textopt) (f : list Z) : outcome (list (list Z)) :=
  let! (text, _) := read_text uc junk junk4 opt [] f in
  find_words uc NFC [] (map value text).

(** stopword.c:37 textopt *)
Definition stopword_opt : textopt := mkopt false false 0 true true.

(** stopword.c:85-104 init_stopwords; [file] is the contents of the file, if a name is
    given. *)
Definition init_stopwords (s : stopwords) (file : option (list Z)) : outcome stopwords :=
  if initialized s then Fail "stopwords already initialized"
  else
    let! words := match file with
                  | Some f => words_in stopword_opt f
                  | None => Ok default_stopword
                  end in
    let s := fold_left save_stopword words s in
    Ok (mkstop true (keys s) (warnings s)).

(** stopword.c:107-113 is_stopword *)
Definition is_stopword (s : stopwords) (string : list Z) : outcome bool :=
  if negb (initialized s) then Fail "stopwords not initialized"
  else Ok (lookup s string).

(** A program calling these two functions: the answers it gets, or the error that ends it. *)
(* Models stopword.c:85-113 *)
Inductive call := Init (file : option (list Z)) | Query (string : list Z).
(* Models stopword.c:85-113 *)
Fixpoint run (s : stopwords) (calls : list call) : outcome (list bool) :=
  match calls with
  | [] => Ok []
  | Init file :: calls => let! s := init_stopwords s file in run s calls
  | Query string :: calls =>
    let! b := is_stopword s string in
    let! bs := run s calls in
    Ok (b :: bs)
  end.
End Files.
