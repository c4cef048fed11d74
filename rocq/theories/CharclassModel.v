(** Model of charclass.c: the table of character classes. *)
From Coq Require Import String.
From Verif Require Import Base CLib TextModel.
Local Open Scope Z_scope.
Local Open Scope list_scope.

(** charclass.h:34 *)
Definition MAX_CHARCLASSES : Z := 256.

(** charclass.c:37-127 range[]: (start, stop, name), in order. *)
Definition range : list (Z * Z * list Z) :=
  [
   (0x0000, 0x0000, bytes "Unassigned");
   (0x0000, 0x0008, bytes "ASCII Control Codes");
   (0x0009, 0x000D, bytes "ASCII Spacing Characters");
   (0x000E, 0x001F, bytes "ASCII Control Codes");
   (0x0020, 0x0020, bytes "ASCII Spacing Characters");
   (0x0021, 0x002F, bytes "ASCII Special Symbols");
   (0x0030, 0x0039, bytes "ASCII Digits");
   (0x003A, 0x0040, bytes "ASCII Special Symbols");
   (0x0041, 0x005A, bytes "ASCII Uppercase Letters");
   (0x005B, 0x0060, bytes "ASCII Special Symbols");
   (0x0061, 0x007A, bytes "ASCII Lowercase Letters");
   (0x007B, 0x007E, bytes "ASCII Special Symbols");
   (0x007F, 0x007F, bytes "ASCII Control Codes");
   (0x0080, 0x009F, bytes "Latin1 Control Codes");
   (0x00A0, 0x00A0, bytes "Latin1 Spacing Characters");
   (0x00A1, 0x00BF, bytes "Latin1 Special Symbols");
   (0x00C0, 0x00D6, bytes "Latin1 Uppercase Letters");
   (0x00D7, 0x00D7, bytes "Latin1 Special Symbols");
   (0x00D8, 0x00DE, bytes "Latin1 Uppercase Letters");
   (0x00DF, 0x00F6, bytes "Latin1 Lowercase Letters");
   (0x00F7, 0x00F7, bytes "Latin1 Special Symbols");
   (0x00F8, 0x00FF, bytes "Latin1 Lowercase Letters");
   (0x0100, 0x017F, bytes "Latin Extended-A");
   (0x0180, 0x024F, bytes "Latin Extended-B");
   (0x0250, 0x02AF, bytes "IPA Extensions");
   (0x02B0, 0x02FF, bytes "Spacing Modifier Letters");
   (0x0300, 0x036F, bytes "Combining Diacritical Marks");
   (0x0370, 0x03CF, bytes "Basic Greek");
   (0x03D0, 0x03FF, bytes "Greek Symbols and Coptic");
   (0x0400, 0x04FF, bytes "Cyrillic");
   (0x0530, 0x058F, bytes "Armenian");
   (0x0590, 0x05CF, bytes "Hebrew Extended-A");
   (0x05D0, 0x05EA, bytes "Basic Hebrew");
   (0x05EB, 0x05FF, bytes "Hebrew Extended-B");
   (0x0600, 0x0652, bytes "Basic Arabic");
   (0x0653, 0x06FF, bytes "Arabic Extended");
   (0x0900, 0x097F, bytes "Devanagari");
   (0x0980, 0x09FF, bytes "Bengali");
   (0x0A00, 0x0A7F, bytes "Gurmukhi");
   (0x0A80, 0x0AFF, bytes "Gujarati");
   (0x0B00, 0x0B7F, bytes "Oriya");
   (0x0B80, 0x0BFF, bytes "Tamil");
   (0x0C00, 0x0C7F, bytes "Telugu");
   (0x0C80, 0x0CFF, bytes "Kannada");
   (0x0D00, 0x0D7F, bytes "Malayalam");
   (0x0E00, 0x0E7F, bytes "Thai");
   (0x0E80, 0x0EFF, bytes "Lao");
   (0x10A0, 0x10CF, bytes "Georgian Extended");
   (0x10D0, 0x10FF, bytes "Basic Georgian");
   (0x1100, 0x11FF, bytes "Hanguljamo");
   (0x1E00, 0x1EFF, bytes "Latin Extended Additional");
   (0x1F00, 0x1FFF, bytes "Greek Extended");
   (0x2000, 0x206F, bytes "General Punctuation");
   (0x2070, 0x209F, bytes "Superscripts and Subscripts");
   (0x20A0, 0x20CF, bytes "Currency Symbols");
   (0x20D0, 0x20FF, bytes "Combining Diacritical Marks for Symbols");
   (0x2100, 0x214F, bytes "Letterlike Symbols");
   (0x2150, 0x218F, bytes "Number Forms");
   (0x2190, 0x21FF, bytes "Arrows");
   (0x2200, 0x22FF, bytes "Mathematical Operators");
   (0x2300, 0x23FF, bytes "Miscellaneous Technical");
   (0x2400, 0x243F, bytes "Control Pictures");
   (0x2440, 0x245F, bytes "Optical Character Recognition");
   (0x2460, 0x24FF, bytes "Enclosed Alphanumerics");
   (0x2500, 0x257F, bytes "Box Drawing");
   (0x2580, 0x259F, bytes "Block Elements");
   (0x25A0, 0x25FF, bytes "Geometric Shapes");
   (0x2600, 0x26FF, bytes "Miscellaneous Symbols");
   (0x2700, 0x27BF, bytes "Dingbats");
   (0x3000, 0x303F, bytes "CJK Symbols and Punctuation");
   (0x3040, 0x309F, bytes "Hiragana");
   (0x30A0, 0x30FF, bytes "Katakana");
   (0x3100, 0x312F, bytes "Bopomofo");
   (0x3130, 0x318F, bytes "Hangul Compatibility Jamo");
   (0x3190, 0x319F, bytes "CJK Miscellaneous");
   (0x3200, 0x32FF, bytes "Enclosed CJK Letters and Months");
   (0x3300, 0x33FF, bytes "CJK Compatibility");
   (0x3400, 0x3D2D, bytes "Hangul");
   (0x3D2E, 0x44B7, bytes "Hangul Supplementary-A");
   (0x44B8, 0x4DFF, bytes "Hangul Supplementary-B");
   (0x4E00, 0x9FFF, bytes "CJK Unified Ideographs");
   (0xE000, 0xF8FF, bytes "Private Use Area");
   (0xF900, 0xFAFF, bytes "CJK Compatibility Ideographs");
   (0xFB00, 0xFB4F, bytes "Alphabetic Presentation Forms");
   (0xFB50, 0xFDFF, bytes "Arabic Presentation Forms-A");
   (0xFE20, 0xFE2F, bytes "Combining Half Marks");
   (0xFE30, 0xFE4F, bytes "CJK Compatibility Forms");
   (0xFE50, 0xFE6F, bytes "Small Form Variants");
   (0xFE70, 0xFEFE, bytes "Arabic Presentation Forms-B");
   (0xFF00, 0xFFEF, bytes "Halfwidth and Fullwidth Forms");
   (0xFFF0, 0xFFFD, bytes "Specials")
  ].

(** charclass.c:137-138: the index of the first class with this name, or the number of
    classes. *)
Fixpoint class_index (names : list (list Z)) (name : list Z) : Z :=
  match names with
  | [] => 0
  | n :: t => if streq n name then 0 else 1 + class_index t name
  end.

(** The static variables class_name[0..num_classes-1] and class[]; class[] has
    NUM_CHARVALUES elements, all 0 at the start of the program. *)
(* Models charclass.c:27-29 *)
Record classes := mkclasses { class_names : list (list Z); class_at : Z -> Z }.

(** charclass.c:135-148: the body of the loop over the ranges.  The inner loop stores j (as
    an unsigned char) in class[start..stop]. *)
Definition add_range (t : classes) (r : Z * Z * list Z) : outcome classes :=
  let '(start, stop, name) := r in
  let j := class_index (class_names t) name in
  let! names := if j =? zlen (class_names t) then
                  if zlen (class_names t) =? MAX_CHARCLASSES
                  then Fail "too many character classes"
                  else Ok (class_names t ++ [name])
                else Ok (class_names t) in
  if (start <=? stop) && ((start <? 0) || (NUM_CHARVALUES <=? stop)) then UB "class[k]"
  else Ok (mkclasses names
             (fun k => if (start <=? k) && (k <=? stop) then j mod 256 else class_at t k)).

(** charclass.c:132-149 initialize_charclass *)
Definition initialize_charclass : outcome classes :=
  ofold add_range range (mkclasses [] (fun _ => 0)).

(** charclass.c:152-158 charclass.  The tables are initialised on the first call (of either
    routine) and do not change afterwards, so each call sees the initialised tables. *)
Definition charclass (v : Z) : outcome Z :=
  let! t := initialize_charclass in
  if (0 <=? v) && (v <? NUM_CHARVALUES) then Ok (class_at t v) else UB "class[value]".

(** charclass.c:161-169 charclass_name *)
Definition charclass_name (c : Z) : outcome (list Z) :=
  let! t := initialize_charclass in
  if zlen (class_names t) <=? c then Fail "invalid character class"
  else rd "class_name[class]" (class_names t) c.
