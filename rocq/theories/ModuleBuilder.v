(** * module_builder/ModuleBuilder.py: the class ModuleBuilder, and module_builder/UCDReader.py *)
From Coq Require Import ZArith List Bool Lia String.
From Verif Require Import Py Dict PyStr Utilities CharNames PyText.
Import ListNotations.
Open Scope Z_scope.
Local Notation length := List.length.
Local Notation concat := List.concat.

(** ** Regular expressions

    The names given are words, so they stand for themselves in a pattern. *)
(** [(.+?)close] at the front, with DOTALL: the group and the text after *)
Definition lazyGroup (close s : str) : option (str * str) :=
  match s with
  | [] => None
  | c :: r => match cut close r with Some (a, b) => Some (c :: a, b) | None => None end
  end.
(** [findall(pattern, s)[0]] for a pattern with one group, given what it matches at the front *)
Fixpoint findFirst (m : str -> option str) (s : str) : res str :=
  match m s with
  | Some g => Ok g
  | None => match s with [] => Err IndexError | _ :: r => findFirst m r end
  end.
(** ModuleBuilder.py:111-114: [name=(.+);], greedy and within a line *)
Definition scalarMatch (name s : str) : option str :=
  if starts (name ++ lit "=") s then
    let '(line, _) := span (fun c => negb (c =? 10)) (skipn (length (name ++ lit "=")) s) in
    match cut (lit ";") (rev line) with
    | Some (_, g) => match g with [] => None | _ => Some (rev g) end
    | None => None
    end
  else None.
Definition getScalarDeclaration (source name : str) : res str := findFirst (scalarMatch name) source.
(** ModuleBuilder.py:116-118: [name\[.+?\]=\{(.+?)\};] *)
Definition arrayMatch (name s : str) : option str :=
  if starts (name ++ lit "[") s then
    match lazyGroup (lit "]={") (skipn (length (name ++ lit "[")) s) with
    | Some (_, r) => match lazyGroup (lit "};") r with Some (g, _) => Some g | None => None end
    | None => None
    end
  else None.
Definition getArrayDeclaration (source name : str) : res str := findFirst (arrayMatch name) source.
(** ModuleBuilder.py:120-122: [name=\{\n(.+?)\n\};] *)
Definition propsMatch (name s : str) : option str :=
  if starts (name ++ lit "={" ++ [10]) s then
    match lazyGroup ([10] ++ lit "};") (skipn (length (name ++ lit "={" ++ [10])) s) with Some (g, _) => Some g | None => None end
  else None.
Definition getPropsDeclaration (source name : str) : res str := findFirst (propsMatch name) source.
(** ModuleBuilder.py:151: [\{\n(.+?)\}] *)
Definition trieMatch (s : str) : option str :=
  if starts (lit "{" ++ [10]) s then match lazyGroup (lit "}") (skipn 2 s) with Some (g, _) => Some g | None => None end else None.

(** ** Lines of the module *)
(** ModuleBuilder.py:124-126: the line appended *)
Definition scalarToPython (source name : str) : res str :=
  let* declaration := getScalarDeclaration source name in Ok (name ++ lit " = " ++ declaration ++ [10]).
(** ModuleBuilder.py:128-136 *)
Definition arrayText (name array : str) : str :=
  let final := if existsb (Z.eqb 10) array then [10] else [] in
  let array := if ends [10] array then removelast array else array in
  let array := match final with [] => array | _ => py_replace array 10 ([10] ++ lit "    ") end in
  name ++ lit " = [" ++ array ++ final ++ lit "]" ++ [10].
Definition arrayToPython (source name : str) : res str :=
  let* array := getArrayDeclaration source name in Ok (arrayText name array).
(** ModuleBuilder.py:139-140 *)
Definition trieNames : list (nat * str) :=
  [(3%nat, lit "index_length"); (5%nat, lit "index_2_null_offset"); (6%nat, lit "data_null_offset"); (9%nat, lit "high_start"); (10%nat, lit "high_value_index")].
(** ModuleBuilder.py:138-147: the lines appended *)
Fixpoint trieLines (splits : list str) (prefix : str) (names : list (nat * str)) : res (list str) :=
  match names with
  | [] => Ok [[]]
  | (index, name) :: r =>
      match nth_error splits index with
      | None => Err IndexError
      | Some f => let* l := trieLines splits prefix r in Ok ((prefix ++ lit "_" ++ name ++ lit " = " ++ trim f) :: l)
      end
  end.
Definition trieValues (trie prefix : str) : res (list str) := trieLines (split (lit "," ++ [10]) trie) prefix trieNames.
(** ModuleBuilder.py:149-152 *)
Definition trieValuesFromPropsDeclaration (source name prefix : str) : res (list str) :=
  let* props := getPropsDeclaration source name in
  let* trie := findFirst trieMatch props in trieValues trie prefix.
(** ModuleBuilder.py:154-156 *)
Definition trieValuesFromTrieDeclaration (source name prefix : str) : res (list str) :=
  let* trie := getPropsDeclaration source name in trieValues trie prefix.

(** * UCDReader *)
Inductive shortNameFun := LowerName | CopyName | SpacesName.
(** UCDReader.py:112-114 *)
Definition applyShort (f : shortNameFun) (s : str) : str :=
  match f with LowerName => lower s | CopyName => s | SpacesName => py_replace s 95 [32] end.
Definition sdict (l : list (string * string)) : dict str := map (fun '(a, b) => (lit a, lit b)) l.
Open Scope string_scope.
(** UCDReader.py:29-37 *)
Definition bcMapings : dict str := sdict [
  ("Arabic_Letter", "RIGHT_TO_LEFT_ARABIC"); ("Common_Separator", "COMMON_NUMBER_SEPARATOR"); ("European_Separator", "EUROPEAN_NUMBER_SEPARATOR");
  ("European_Terminator", "EUROPEAN_NUMBER_TERMINATOR"); ("Nonspacing_Mark", "DIR_NON_SPACING_MARK"); ("Paragraph_Separator", "BLOCK_SEPARATOR");
  ("White_Space", "WHITE_SPACE_NEUTRAL")].
(** UCDReader.py:39-42 *)
Definition blkMappings : dict str := sdict [
  ("Combining_Diacritical_Marks_For_Symbols", "COMBINING_MARKS_FOR_SYMBOLS"); ("Greek_And_Coptic", "GREEK")].
(** UCDReader.py:47-64 *)
Definition gcMappings : dict str := sdict [
  ("Other", ""); ("Control", "CONTROL_CHAR"); ("Format", "FORMAT_CHAR"); ("Private_Use", "PRIVATE_USE_CHAR"); ("Letter", ""); ("Cased_Letter", "");
  ("Mark", ""); ("Spacing_Mark", "COMBINING_SPACING_MARK"); ("Nonspacing_Mark", "NON_SPACING_MARK"); ("Number", "");
  ("Decimal_Number", "DECIMAL_DIGIT_NUMBER"); ("Punctuation", ""); ("Close_Punctuation", "END_PUNCTUATION"); ("Open_Punctuation", "START_PUNCTUATION");
  ("Symbol", ""); ("Separator", "")].
(** UCDReader.py:66-68 *)
Definition gcbMappings : dict str := sdict [("SpacingMark", "SPACING_MARK")].
(** UCDReader.py:70-108 *)
Definition scriptMappings : dict str := sdict [
  ("Afak", "AFAKA"); ("Blis", "BLISSYMBOLS"); ("Cirt", "CIRTH"); ("Cyrs", "OLD_CHURCH_SLAVONIC_CYRILLIC"); ("Egyd", "DEMOTIC_EGYPTIAN");
  ("Egyh", "HIERATIC_EGYPTIAN"); ("Geok", "KHUTSURI"); ("Hanb", "HAN_WITH_BOPOMOFO"); ("Hans", "SIMPLIFIED_HAN"); ("Hant", "TRADITIONAL_HAN");
  ("Inds", "HARAPPAN_INDUS"); ("Jpan", "JAPANESE"); ("Jurc", "JURCHEN"); ("Kore", "KOREAN"); ("Kpel", "KPELLE"); ("Tai_Tham", "LANNA");
  ("Latf", "LATIN_FRAKTUR"); ("Latg", "LATIN_GAELIC"); ("Maya", "MAYAN_HIEROGLYPHS"); ("Mende_Kikakui", "MENDE"); ("Meetei_Mayek", "MEITEI_MAYEK");
  ("Nkgb", "NAKHI_GEBA"); ("Old_Turkic", "ORKHON"); ("Phlv", "BOOK_PAHLAVI"); ("Roro", "RONGORONGO"); ("Sara", "SARATI");
  ("SignWriting", "SIGN_WRITING"); ("Syre", "ESTRANGELO_SYRIAC"); ("Syrj", "WESTERN_SYRIAC"); ("Syrn", "EASTERN_SYRIAC"); ("Teng", "TENGWAR");
  ("Visp", "VISIBLE_SPEECH"); ("Wole", "WOLEAI"); ("Zmth", "MATHEMATICAL_NOTATION"); ("Zsye", "SYMBOLS_EMOJI"); ("Zsym", "SYMBOLS");
  ("Zxxx", "UNWRITTEN_LANGUAGES")].
(** UCDReader.py:116-134 *)
Record typePrefix := { tp_prefix : str; tp_name : str; tp_map : dict str; tp_fun : shortNameFun }.
Definition tp (t p n : string) (m : dict str) (f : shortNameFun) : str * typePrefix :=
  (lit t, {| tp_prefix := lit p; tp_name := lit n; tp_map := m; tp_fun := f |}).
Definition prefixes : dict typePrefix := [
  tp "bc" "U" "bidiClass" bcMapings SpacesName; tp "blk" "UBLOCK" "block" blkMappings SpacesName;
  tp "dt" "U_DT" "decompositionType" [] LowerName; tp "ea" "U_EA" "eastAsianWidth" [] SpacesName;
  tp "gc" "U" "generalCategory" gcMappings SpacesName; tp "GCB" "U_GCB" "graphemeClusterBreak" gcbMappings SpacesName;
  tp "hst" "U_HST" "hangulSyllableType" [] SpacesName; tp "InPC" "U_INPC" "indicPositionalCategory" [] CopyName;
  tp "InSC" "U_INSC" "indicSyllabicCategory" [] CopyName; tp "jg" "U_JG" "joiningGroup" [] SpacesName;
  tp "jt" "U_JT" "joiningType" [] SpacesName; tp "lb" "U_LB" "lineBreak" [] SpacesName; tp "nt" "U_NT" "numberType" [] SpacesName;
  tp "SB" "U_SB" "sentenceBreak" [] SpacesName; tp "sc" "USCRIPT" "script" scriptMappings SpacesName;
  tp "vo" "U_VO" "verticalOrientation" [] SpacesName; tp "WB" "U_WB" "wordBreak" [] SpacesName].
Close Scope string_scope.

(** row[n] for a constant index *)
Definition cell (row : list str) (n : nat) : res str := match nth_error row n with Some s => Ok s | None => Err IndexError end.
(** the constant's name for a long name, [None] when it is left out: UCDReader.py:173-176 *)
Definition keyOf (p : typePrefix) (longName : str) : option str :=
  match dict_find (tp_map p) longName with
  | Some [] => None
  | Some k => Some k
  | None => Some (upper longName)
  end.
(** [f"    {prefix}_{key}: \"{value}\""] *)
Definition dictLine (p : typePrefix) (key shortName : str) : str :=
  lit "    " ++ tp_prefix p ++ lit "_" ++ key ++ lit ": " ++ [34] ++ applyShort (tp_fun p) shortName ++ [34].
(** UCDReader.py:158-180.  The rows are those of csv.reader (CsvReader.v); the state
    is [ucdVersion] and [lines]. *)
Definition readRow (row : list str) (st : option str * dict (list str)) : res (option str * dict (list str)) :=
  let '(version, lines) := st in
  match row with
  | [] => Ok st
  | kind :: _ =>
      if str_eqb kind (lit "ucd") then let* v := cell row 1 in Ok (Some v, lines)
      else if str_eqb kind (lit "value") then
        let* type := cell row 1 in
        let* shortName := cell row 2 in
        let* longName := cell row 3 in
        match dict_find prefixes type with
        | None => Ok st
        | Some p =>
            let old := match dict_find lines type with Some l => l | None => [] end in
            let lines := match dict_find lines type with Some _ => lines | None => dict_set lines type [] end in
            match keyOf p longName with
            | None => Ok (version, lines)
            | Some key => Ok (version, dict_set lines type (old ++ [dictLine p key shortName]))
            end
        end
      else Ok st
  end.
Fixpoint readRows (rows : list (list str)) (st : option str * dict (list str)) : res (option str * dict (list str)) :=
  match rows with [] => Ok st | row :: r => let* st := readRow row st in readRows r st end.
Definition generateDictionaries (rows : list (list str)) : res (option str * dict (list str)) := readRows rows (None, []).
(** UCDReader.py:182-194: what is written after the header lines *)
Fixpoint writeTypes (lines : dict (list str)) : res str :=
  match lines with
  | [] => Ok []
  | (type, values) :: r =>
      let* p := dict_get prefixes type in
      let* rest := writeTypes r in
      Ok (tp_name p ++ lit "Names = {" ++ [10] ++ join (lit "," ++ [10]) values ++ [10] ++ lit "}" ++ [10; 10] ++ rest)
  end.
Definition writeFile (prefixLines : list str) (lines : dict (list str)) : res str :=
  let* t := writeTypes lines in Ok (concat (map (fun l => l ++ [10]) prefixLines) ++ t).
