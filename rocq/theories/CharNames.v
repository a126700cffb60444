(** * Model of UnicodeData/CharNames.py

    The class attributes of [Tokens] and [CharNames] are a record.  The methods take
    it; [populateData] takes it and returns the new one.  An exception in
    [populateData] ends the import of the module, so nothing is kept then. *)
From Coq Require Import ZArith List Bool Lia String Ascii.
From Verif Require Import Py Bytes Dict Utilities CharProps ICUDataFile.
Import ListNotations.
Open Scope Z_scope.

(** a string literal as the list of its code points *)
Fixpoint lit (s : string) : str := match s with EmptyString => [] | String a r => Z.of_N (N_of_ascii a) :: lit r end.

(** CharNames.py:19-22 *)
Definition GC_CATEFORY_COUNT := 30.
Definition GC_NONCHARACTER_CODEPOINT := GC_CATEFORY_COUNT.
Definition GC_LEAD_SURROGATE := GC_CATEFORY_COUNT + 1.
Definition GC_TRAIL_SURROGATE := GC_CATEFORY_COUNT + 2.
(** CharNames.py:24-58 *)
Definition charCatNames : list str := List.map lit [
  "unassigned"; "uppercase letter"; "lowercase letter"; "titlecase letter"; "modifier letter"; "other letter";
  "non spacing mark"; "enclosing mark"; "combining spacing mark"; "decimal digit number"; "letter number"; "other number";
  "space separator"; "line separator"; "paragraph separator"; "control"; "format"; "private use area"; "surrogate";
  "dash punctuation"; "start punctuation"; "end punctuation"; "connector punctuation"; "other punctuation";
  "math symbol"; "currency symbol"; "modifier symbol"; "other symbol"; "initial punctuation"; "final punctuation";
  "noncharacter"; "lead surrogate"; "trail surrogate"]%string.

(** CharNames.py:60-71 *)
Definition U_UNICODE_CHAR_NAME := 0.
Definition U_UNICODE_10_CHAR_NAME := 1.
Definition U_EXTENDED_CHAR_NAME := 2.
Definition U_CHAR_NAME_ALIAS := 3.
Definition U_ISO_COMMENT := 4.
(** CharNames.py:73-75 *)
Definition GROUP_SHIFT := 5.
Definition LINES_PER_GROUP := Z.shiftl 1 GROUP_SHIFT.
Definition GROUP_MASK := LINES_PER_GROUP - 1.
(** CharNames.py:82 *)
Definition CP_SEMICOLON := 59.

(** [f"{n:0wX}"] for any int *)
Definition formatHexInt (w : nat) (n : Z) : str := if n <? 0 then 45 :: formatHex (w - 1) (- n) else formatHex w n.

(** ** Tokens (CharNames.py:109-160) *)
Record tokens := mkTokens { t_tokens : list Z; t_strings : bytes }.
Definition noTokens : tokens := mkTokens [] [].

(** CharNames.py:113-120 *)
Definition populateTokens (T : tokens) (D : icuData) (tokensStart tokenStringsStart tokenStringsLimit : Z) : res tokens :=
  if zlen (t_tokens T) =? 0 then
    let* n := unpack 2 1 (getData D tokensStart (tokensStart + 2)) in
    match n with
    | [tokenCount] =>
        let* toks := unpack 2 tokenCount (getData D (tokensStart + 2) tokenStringsStart) in
        Ok (mkTokens toks (getData D tokenStringsStart tokenStringsLimit))
    | _ => Err StructError
    end
  else Ok T.

(** CharNames.py:156-158: the characters of a token *)
Definition tokenString (T : tokens) (token : Z) : res str := stringFrom (S (List.length (t_strings T))) (t_strings T) token.

(** CharNames.py:128-160: [expandedName] is the name so far; each round takes one or two bytes *)
Fixpoint expandLoop (fuel : nat) (T : tokens) (string : bytes) (nameChoice : Z) (expandedName : str) : res str :=
  match string with
  | [] => Ok expandedName
  | c :: rest =>
      match fuel with
      | O => Err OutOfFuel
      | S m =>
          if c >=? zlen (t_tokens T) then
            if negb (c =? CP_SEMICOLON) then let* k := py_chr c in expandLoop m T rest nameChoice (expandedName ++ k) else Ok expandedName
          else
            let* token := py_get (t_tokens T) c in
            let* (token, rest) :=
              (if token =? 0xFFFE then
                 match rest with
                 | [] => Err IndexError
                 | d :: rest' => let* t := py_get (t_tokens T) (Z.lor (Z.shiftl c 8) d) in Ok (t, rest')
                 end
               else Ok (token, rest)) in
            if token =? 0xFFFF then
              if negb (c =? CP_SEMICOLON) then let* k := py_chr c in expandLoop m T rest nameChoice (expandedName ++ k)
              else if (zlen expandedName =? 0) && (nameChoice =? U_EXTENDED_CHAR_NAME) then
                let* again := (if CP_SEMICOLON >=? zlen (t_tokens T) then Ok true else let* t := py_get (t_tokens T) CP_SEMICOLON in Ok (t =? 0xFFFF)) in
                if again then expandLoop m T rest nameChoice expandedName else Ok expandedName
              else Ok expandedName
            else
              let* s := tokenString T token in expandLoop m T rest nameChoice (expandedName ++ s)
      end
  end.
(** CharNames.py:122-160 *)
Definition expandString (T : tokens) (string : bytes) (nameChoice : Z) : res str := expandLoop (List.length string) T string nameChoice [].

(** ** Groups (CharNames.py:167-264) *)
(** CharNames.py:199-230: the loop; at least one length is found in each round *)
Fixpoint lengthsLoop (fuel : nat) (D : icuData) (i s offset length : Z) (offsets lengths : list Z) : res (Z * list Z * list Z) :=
  if negb (i <? LINES_PER_GROUP) then Ok (s, offsets, lengths)
  else
    match fuel with
    | O => Err OutOfFuel
    | S m =>
        match getData D s (s + 1) with
        | [lengthByte] =>
            let s := s + 1 in
            let (length, lengthByte) :=
              (if length >=? 12 then (Z.lor (Z.shiftl (Z.land length 3) 4) (Z.shiftr lengthByte 4) + 12, Z.land lengthByte 15)
               else if lengthByte >=? 0xC0 then (Z.land lengthByte 0x3F + 12, lengthByte)
               else (Z.shiftr lengthByte 4, Z.land lengthByte 15)) in
            let offsets := offsets ++ [offset] in
            let lengths := lengths ++ [length] in
            let offset := offset + length in
            let i := i + 1 in
            if Z.land lengthByte 0xF0 =? 0 then
              let length := lengthByte in
              if length <? 12 then lengthsLoop m D (i + 1) s (offset + length) length (offsets ++ [offset]) (lengths ++ [length])
              else lengthsLoop m D i s offset length offsets lengths
            else lengthsLoop m D i s offset 0 offsets lengths
        | _ => Err ValueError
        end
    end.
(** CharNames.py:191-232 *)
Definition expandGroupLengths (D : icuData) (groupStringsOffset : Z) : res (Z * list Z * list Z) :=
  lengthsLoop (Z.to_nat LINES_PER_GROUP) D 0 groupStringsOffset 0 0 [] [].

Record group := mkGroup { g_msb : Z; g_strings : list bytes }.
Definition groupLength : Z := 6.
(** CharNames.py:240-242: charRange.start and charRange.stop *)
Definition g_start (g : group) : Z := Z.shiftl (g_msb g) GROUP_SHIFT.
Definition g_stop (g : group) : Z := g_start g + LINES_PER_GROUP.
(** CharNames.py:234-250 *)
Definition newGroup (D : icuData) (groupStart groupStringsStart : Z) : res group :=
  let* l := unpack 2 3 (getData D groupStart (groupStart + groupLength)) in
  match l with
  | [msb; offsetHigh; offsetLow] =>
      let offset := Z.lor (Z.shiftl offsetHigh 16) offsetLow in
      let* (dataOffset, offsets, lengths) := expandGroupLengths D (groupStringsStart + offset) in
      Ok (mkGroup msb (map (fun ol => let stringStart := dataOffset + fst ol in getData D stringStart (stringStart + snd ol)) (combine offsets lengths)))
  | _ => Err StructError
  end.

(** [string.split(b";")] *)
Fixpoint splitOn (x : Z) (s cur : list Z) : list (list Z) :=
  match s with [] => [cur] | y :: r => if y =? x then cur :: splitOn x r [] else splitOn x r (cur ++ [y]) end.
(** CharNames.py:252-260 *)
Definition expandName (T : tokens) (g : group) (lineNumber nameChoice : Z) : res str :=
  let* string := py_get (g_strings g) lineNumber in
  let* string :=
    (if negb (nameChoice =? U_UNICODE_CHAR_NAME) && negb (nameChoice =? U_EXTENDED_CHAR_NAME) then
       let fieldIndex := if nameChoice =? U_ISO_COMMENT then 2 else nameChoice in
       let fields := splitOn CP_SEMICOLON string [] in
       if fieldIndex <? zlen fields then py_get fields fieldIndex else Ok []
     else Ok string) in
  expandString T string nameChoice.

(** ** Algorithmic ranges (CharNames.py:266-360) *)
Record algRange := mkAlg { a_start : Z; a_stop : Z; a_type : Z; a_variant : Z; a_size : Z; a_factors : list Z; a_string : str; a_elements : list str }.
Definition rangeLength : Z := 12.
(** CharNames.py:296-299: the loop *)
Fixpoint elementsLoop (fuel : nat) (D : icuData) (elementStart limit : Z) : res (list str) :=
  if negb (elementStart <? limit) then Ok []
  else match fuel with
       | O => Err OutOfFuel
       | S m => let* element := getString D elementStart in
                let* r := elementsLoop m D (elementStart + (zlen element + 1)) limit in Ok (element :: r)
       end.
(** CharNames.py:267-304; the fields are [IIBBH] *)
Definition newAlgorithmicRange (D : icuData) (offset : Z) : res algRange :=
  let rangeLimit := offset + rangeLength in
  let b := getData D offset rangeLimit in
  if negb (zlen b =? rangeLength) then Err StructError
  else
    let start := le (py_slice b 0 4) in
    let stop := le (py_slice b 4 8) + 1 in
    let type := le (py_slice b 8 9) in
    let variant := le (py_slice b 9 10) in
    let size := le (py_slice b 10 12) in
    if type =? 0 then let* s := getString D rangeLimit in Ok (mkAlg start stop type variant size [] s [])
    else if type =? 1 then
      let factorsLimit := rangeLimit + 2 * variant in
      let* factors := unpack 2 variant (getData D rangeLimit factorsLimit) in
      let* s := getString D factorsLimit in
      let elementStart := factorsLimit + zlen s + 1 in
      let* elements := elementsLoop (Z.to_nat (offset + size - elementStart)) D elementStart (offset + size) in
      Ok (mkAlg start stop type variant size factors s elements)
    else Ok (mkAlg start stop type variant size [] [] []).

(** CharNames.py:313-318: [factors] are those from the last to the second *)
Fixpoint indexesLoop (factors : list Z) (code : Z) (indexes : list Z) : res (list Z) :=
  match factors with
  | [] => Ok (code :: indexes)
  | f :: r => if f =? 0 then Err ZeroDivisionError else indexesLoop r (code / f) (code mod f :: indexes)
  end.
(** CharNames.py:320-324; there are at least as many indexes as factors *)
Fixpoint suffixLoop (A : algRange) (factors indexes : list Z) (elementIndex : Z) (suffix : str) : res str :=
  match factors, indexes with
  | f :: fr, i :: ir =>
      let elementIndex := elementIndex + i in
      let* e := py_get (a_elements A) elementIndex in
      suffixLoop A fr ir (elementIndex + (f - i)) (suffix ++ e)
  | _, _ => Ok suffix
  end.
(** CharNames.py:306-326 *)
Definition factorSuffix (A : algRange) (char : Z) : res str :=
  let* indexes := indexesLoop (rev (tl (a_factors A))) (char - a_start A) [] in
  suffixLoop A (a_factors A) indexes 0 (a_string A).
(** CharNames.py:328-350 *)
Definition algName (A : algRange) (code nameChoice : Z) : res str :=
  if negb (nameChoice =? U_UNICODE_CHAR_NAME) && negb (nameChoice =? U_EXTENDED_CHAR_NAME) then Ok []
  else if a_type A =? 0 then
    let digits := a_variant A in
    Ok (a_string A ++ formatHexInt (if digits =? 4 then 4 else if digits =? 5 then 5 else 6) code)
  else if a_type A =? 1 then factorSuffix A code
  else Ok [].
(** CharNames.py:352-353 *)
Definition charInRange (A : algRange) (char : Z) : bool := (a_start A <=? char) && (char <? a_stop A).

(** ** CharNames (CharNames.py:362-487) *)
Record names := mkNames { n_tokens : tokens; n_groups : list group; n_ranges : list algRange }.
Definition noNames : names := mkNames noTokens [] [].

(** CharNames.py:392-395 *)
Fixpoint groupsLoop (n : nat) (D : icuData) (groupStart groupStringsStart : Z) : res (list group) :=
  match n with
  | O => Ok []
  | S m => let* g := newGroup D groupStart groupStringsStart in
           let* r := groupsLoop m D (groupStart + groupLength) groupStringsStart in Ok (g :: r)
  end.
(** CharNames.py:401-404 *)
Fixpoint rangesLoop (n : nat) (D : icuData) (rangeStart : Z) : res (list algRange) :=
  match n with
  | O => Ok []
  | S m => let* a := newAlgorithmicRange D rangeStart in
           let* r := rangesLoop m D (rangeStart + a_size a) in Ok (a :: r)
  end.
Definition unames : str := lit "unames.icu".
(** CharNames.py:367-404 *)
Definition populateData (N : names) (D : icuData) : res names :=
  let* (dataOffset, dataHeader) := getDataOffsetAndHeader D unames in
  let baseOffset := dataOffset + headerLength dataHeader in
  let namesDataHeaderLimit := baseOffset + 16 in
  let* h := unpack 4 4 (getData D baseOffset namesDataHeaderLimit) in
  match h with
  | [tokenStringOffset; groupsOffset; groupStringOffset; algNamesOffset] =>
      let* T := populateTokens (n_tokens N) D namesDataHeaderLimit (tokenStringOffset + baseOffset) (groupsOffset + baseOffset) in
      let groupsStart := groupsOffset + baseOffset in
      let* gl := unpack 2 1 (getData D groupsStart (groupsStart + 2)) in
      match gl with
      | [groupsLimit] =>
          let* gs := groupsLoop (Z.to_nat groupsLimit) D (groupsStart + 2) (groupStringOffset + baseOffset) in
          let rangeStart := algNamesOffset + baseOffset in
          let* rc := unpack 4 1 (getData D rangeStart (rangeStart + 4)) in
          match rc with
          | [algorithmicRangeCount] =>
              let* rs := rangesLoop (Z.to_nat algorithmicRangeCount) D (rangeStart + 4) in
              Ok (mkNames T (n_groups N ++ gs) (n_ranges N ++ rs))
          | _ => Err StructError
          end
      | _ => Err StructError
      end
  | _ => Err StructError
  end.

(** CharNames.py:412-417: the loop; [limit - start] shrinks *)
Fixpoint searchLoop (fuel : nat) (gs : list group) (groupMSB start limit : Z) : res Z :=
  if negb (start <? limit - 1) then Ok start
  else
    match fuel with
    | O => Err OutOfFuel
    | S m => let midpoint := (start + limit) / 2 in
             let* g := py_get gs midpoint in
             if groupMSB <? g_msb g then searchLoop m gs groupMSB start midpoint else searchLoop m gs groupMSB midpoint limit
    end.
(** CharNames.py:406-419 *)
Definition getGroup (N : names) (code : Z) : res (option group) :=
  let groupMSB := Z.shiftr code GROUP_SHIFT in
  let* start := searchLoop (List.length (n_groups N)) (n_groups N) groupMSB 0 (zlen (n_groups N)) in
  let* g := py_get (n_groups N) start in
  Ok (if g_msb g =? groupMSB then Some g else None).

(** CharNames.py:422-431 *)
Definition getCharCat (code : Z) : res Z :=
  if isUnicodeNoncharacter code then Ok GC_NONCHARACTER_CODEPOINT
  else
    let* cat := getGeneralCategory icu code in
    Ok (if cat =? GC_SURROGATE then (if isLead code then GC_LEAD_SURROGATE else GC_TRAIL_SURROGATE) else cat).
(** CharNames.py:433-437 *)
Definition getCharCatName (code : Z) : res str :=
  let* cat := getCharCat code in
  if cat >=? zlen charCatNames then Ok (lit "unknown") else py_get charCatNames cat.

(** CharNames.py:439-446 *)
Definition groupName (N : names) (code nameChoice : Z) : res str :=
  let* g := getGroup N code in
  match g with Some g => expandName (n_tokens N) g (Z.land code GROUP_MASK) nameChoice | None => Ok [] end.
(** CharNames.py:448-457 *)
Definition getCharName (N : names) (code nameChoice : Z) : res str :=
  match find (fun a => charInRange a code) (n_ranges N) with
  | Some a => algName a code nameChoice
  | None =>
      if nameChoice =? U_EXTENDED_CHAR_NAME then
        let* cat := getCharCatName code in Ok (lit "<" ++ cat ++ lit "-" ++ formatHexInt 4 code ++ lit ">")
      else groupName N code nameChoice
  end.

(** What a generator yields and how it ends. *)
Definition gen A : Type := list A * res unit.
Definition gen_app {A} (a : gen A) (b : gen A) : gen A :=
  match snd a with Ok _ => (fst a ++ fst b, snd b) | Err e => (fst a, Err e) end.
(** [for code in codes: name = f(code); if name: yield (code, name)]: lines 262-264 and 468-469, 358-360 and 474-475 *)
Fixpoint yieldNames (f : Z -> res str) (codes : list Z) : gen (Z * str) :=
  match codes with
  | [] => ([], Ok tt)
  | c :: r => match f c with
              | Err e => ([], Err e)
              | Ok name => gen_app ((match name with [] => [] | _ => [(c, name)] end), Ok tt) (yieldNames f r)
              end
  end.
(** [range(start, stop)] *)
Definition py_range (start stop : Z) : list Z := map (fun k => start + Z.of_nat k) (seq 0 (Z.to_nat (stop - start))).

(** CharNames.py:464-479: the loop; [algRange] is the ranges not yet used; [char] grows *)
Fixpoint iterLoop (fuel : nat) (N : names) (nameChoice charLimit char : Z) (ranges : list algRange) : gen (Z * str) :=
  if negb (char <? charLimit) then ([], Ok tt)
  else
    match fuel with
    | O => ([], Err OutOfFuel)
    | S m =>
        match getGroup N char with
        | Err e => ([], Err e)
        | Ok g =>
            match (match g with Some g => if (g_start g <=? char) && (char <? g_stop g) then Some g else None | None => None end) with
            | Some g =>
                gen_app (yieldNames (fun code => expandName (n_tokens N) g (Z.land code GROUP_MASK) nameChoice) (py_range (g_start g) (g_stop g)))
                  (iterLoop m N nameChoice charLimit (g_stop g) ranges)
            | None =>
                match ranges with
                | a :: rest =>
                    if charInRange a char then
                      gen_app (yieldNames (fun code => algName a code nameChoice) (py_range (a_start a) (a_stop a)))
                        (iterLoop m N nameChoice charLimit (a_stop a) rest)
                    else iterLoop m N nameChoice charLimit (char + LINES_PER_GROUP) ranges
                | [] => iterLoop m N nameChoice charLimit (char + LINES_PER_GROUP) ranges
                end
            end
        end
    end.
(** CharNames.py:459-479 *)
Definition nameIterator (N : names) (nameChoice : Z) : gen (Z * str) :=
  match py_get (n_groups N) (-1), py_get (n_ranges N) (-1) with
  | Err e, _ => ([], Err e)
  | _, Err e => ([], Err e)
  | Ok g, Ok a =>
      let charLimit := Z.max (g_stop g) (a_stop a) in
      iterLoop (Z.to_nat charLimit) N nameChoice charLimit 0 (n_ranges N)
  end.

(** CharNames.py:481-487 *)
Definition charFromName (N : names) (theName : str) (nameChoice : Z) : res Z :=
  let it := nameIterator N nameChoice in
  match find (fun cn => str_eqb (snd cn) theName) (fst it) with
  | Some (code, _) => Ok code
  | None => let* _ := snd it in Ok 0xFFFFFFFF
  end.
