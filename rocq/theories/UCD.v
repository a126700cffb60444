(** * Model of UCDProperties.py, BidiProperties.py, CaseProperties.py, DecompProperties.py,
    IndicProperties.py, BinaryProperties.py and CharacterData.py

    An XML element is the dictionary of its attributes; the rest of the XML library
    is not modelled.  The attributes [_char] and [_group] are deleted when an object
    has been made, so the functions that make one take the two elements. *)
From Coq Require Import ZArith List Bool Lia String.
From Verif Require Import Py PyStr Dict CharProps CharNames.
Import ListNotations.
Open Scope Z_scope.
Local Notation length := List.length.
Local Notation concat := List.concat.

Definition element := dict str.

(** [chr(int(codePoint, 16))] for each piece, joined: UCDProperties.py:38-44, DecompProperties.py:25-30 *)
Definition charsOf (s : str) : res str :=
  let* chars := mapM (fun codePoint => let* n := py_int codePoint 16 in py_chr n) (py_split s 32) in Ok (concat chars).

Section Element.
  Variables char group : element.

  (** UCDProperties.py:14-25 *)
  Definition getCharProperty (property : str) : str :=
    match dict_find char property with
    | Some v => v
    | None => match dict_find group property with Some v => v | None => [] end
    end.
  (** UCDProperties.py:27-29 *)
  Definition getBooleanProperty (property : str) : bool := str_eqb (getCharProperty property) (lit "Y").
  (** UCDProperties.py:59-60 *)
  Definition cp : str := getCharProperty (lit "cp").
  (** UCDProperties.py:31-46; a property is always a [str] *)
  Definition getCodePointsProperty (property : str) : res str :=
    let codePointString := getCharProperty property in
    if (zlen codePointString =? 0) || str_eqb codePointString (lit "#") then let* n := py_int cp 16 in format_c n
    else charsOf codePointString.

  (** ** BidiProperties.py *)
  Record bidiProperties := mkBidi { bp_codePoint : Z; bidiClass : str; bidiMirrored : bool; bidiMirroredGlyph : Z; bidiControl : bool;
    bidiPairedBracketType : str; bidiPairedBracket : Z }.
  (** BidiProperties.py:16-34 *)
  Definition newBidiProperties : res bidiProperties :=
    let* codePoint := py_int cp 16 in
    let bmg := getCharProperty (lit "bmg") in
    let* mirror := (if str_eqb bmg [] then Ok codePoint else py_int bmg 16) in
    let bpb := getCharProperty (lit "bpb") in
    let* bracket := (if str_eqb bpb (lit "#") then Ok codePoint else py_int bpb 16) in
    Ok (mkBidi codePoint (getCharProperty (lit "bc")) (getBooleanProperty (lit "Bidi_M")) mirror (getBooleanProperty (lit "Bidi_C"))
      (getCharProperty (lit "bpt")) bracket).

  (** ** CaseProperties.py *)
  Record caseProperties := mkCase { cs_codePoint : Z; upper : bool; lower : bool; otherUpper : bool; otherLower : bool;
    simpleUpperCase : str; simpleLowerCase : str; simpleTitleCase : str; upperCase : str; lowerCase : str; titleCase : str;
    simpleCaseFolding : str; caseFolding : str; caseIgnorable : bool; cased : bool; changesWhenCaseFolded : bool; changesWhenCasedMapped : bool;
    changesWhenLowercased : bool; changesWhenNFKCCaseFolded : bool; changesWhenTitlecased : bool; changesWhenUppercased : bool; nkfcCasefold : str }.
  (** CaseProperties.py:14-44; the simple title case is the attribute itself *)
  Definition newCaseProperties : res caseProperties :=
    let* codePoint := py_int cp 16 in
    let* suc := getCodePointsProperty (lit "suc") in
    let* slc := getCodePointsProperty (lit "slc") in
    let stc := getCharProperty (lit "stc") in
    let* uc := getCodePointsProperty (lit "uc") in
    let* lc := getCodePointsProperty (lit "lc") in
    let* tc := getCodePointsProperty (lit "tc") in
    let* scf := getCodePointsProperty (lit "scf") in
    let* cf := getCodePointsProperty (lit "cf") in
    let* nfkc := getCodePointsProperty (lit "NFKC_CF") in
    let b := getBooleanProperty in
    Ok (mkCase codePoint (b (lit "Upper")) (b (lit "Lower")) (b (lit "OUpper")) (b (lit "OLower")) suc slc stc uc lc tc scf cf
      (b (lit "CI")) (b (lit "Cased")) (b (lit "CWCF")) (b (lit "CWCM")) (b (lit "CWL")) (b (lit "CWKCF")) (b (lit "CWT")) (b (lit "CWU")) nfkc).

  (** ** DecompProperties.py *)
  Record decompProperties := mkDecomp { dp_codePoint : Z; decompositionType : str; decomposition : option str; compositionExclusion : bool;
    fullCompositionExclusion : bool; nfcQuickCheck : str; nfdQuickCheck : str; nfkcQuickCheck : str; nfkdQuickCheck : str; expandOnNFC : bool;
    expandOnNFD : bool; expandOnNFKC : bool; expandOnNFKD : bool; nfkcFullClosure : option str; nfkcCaseFolded : option str }.
  (** DecompProperties.py:13-30 *)
  Definition dmToString (codePoint : Z) (dm : str) (doPoundSign : bool) : res (option str) :=
    if doPoundSign && str_eqb dm (lit "#") then let* s := py_chr codePoint in Ok (Some s)
    else if (zlen dm =? 0) || str_eqb dm (lit "#") then Ok None
    else let* s := charsOf dm in Ok (Some s).
  (** DecompProperties.py:32-59 *)
  Definition newDecompProperties : res decompProperties :=
    let* codePoint := py_int cp 16 in
    let* dm := dmToString codePoint (getCharProperty (lit "dm")) false in
    let* fc := dmToString codePoint (getCharProperty (lit "FC_NFKC")) false in
    let* cf := dmToString codePoint (getCharProperty (lit "NFKC_CF")) true in
    let b := getBooleanProperty in
    let p := getCharProperty in
    Ok (mkDecomp codePoint (p (lit "dt")) dm (b (lit "CE")) (b (lit "Comp_Ex")) (p (lit "NFC_QC")) (p (lit "NFD_QC")) (p (lit "NFKC_QC"))
      (p (lit "NFKD_QC")) (b (lit "XO_NFC")) (b (lit "XO_NFD")) (b (lit "XO_NFKC")) (b (lit "XO_NFKD")) fc cf).

  (** ** IndicProperties.py:13-21 *)
  Record indicProperties := mkIndic { in_codePoint : Z; syllabicCategory : str; positionalCategory : str }.
  Definition newIndicProperties : res indicProperties :=
    let* codePoint := py_int cp 16 in Ok (mkIndic codePoint (getCharProperty (lit "InSC")) (getCharProperty (lit "InPC"))).

  (** ** BinaryProperties.py:13-54 *)
  Definition propsList : list (str * str) := List.map (fun p => (lit (fst p), lit (snd p))) [
    ("whitespace", "WSpace"); ("dash", "Dash"); ("hyphen", "Hyphen"); ("quotationMark", "QMark"); ("terminalPunctuation", "Term");
    ("sentenceTerminalPunctuation", "STerm"); ("diacritic", "Dia"); ("extender", "Ext"); ("prependedConcatenationMark", "PCM");
    ("softDotted", "SD"); ("alphabetic", "Alpha"); ("otherAlphabetic", "OAlpha"); ("math", "Math"); ("otherMath", "OMath"); ("hexDigit", "Hex");
    ("asciiHexDigit", "AHex"); ("defaultIgnorable", "DI"); ("otherDefaultIgnorable", "ODI"); ("logicalOrderException", "LOE");
    ("regionalIndicator", "RI"); ("graphemeBase", "Gr_Base"); ("graphemeExtended", "Gr_Ext"); ("otherGraphemeExtended", "OGr_Ext");
    ("graphemeLink", "Gr_Link"); ("ideographic", "Ideo"); ("unifiedIdeographic", "UIdeo"); ("idsBinaryOperator", "IDSB");
    ("idsTrinaryOperator", "IDST"); ("radical", "Radical"); ("deprecated", "Dep"); ("variationSelector", "VS");
    ("nonCharacterCodePoint", "NChar"); ("idStart", "IDS"); ("otherIDStart", "OIDS"); ("xIDStart", "XIDS"); ("idContinue", "IDC");
    ("otherIDContinue", "OIDC"); ("xIDContinue", "XIDC"); ("patternSyntax", "Pat_Syn"); ("patternWhitespace", "Pat_WS")]%string.
  (** BinaryProperties.py:56-65: the attributes set by [setattr], as a dictionary *)
  Definition newBinaryProperties : res (Z * dict bool) :=
    let* codePoint := py_int cp 16 in
    Ok (codePoint, fold_left (fun d ft => dict_set d (fst ft) (getBooleanProperty (snd ft))) propsList []).

  (** ** CharacterData.py *)
  (** [eval(nv)]: whole numbers and quotients of whole numbers, with a sign.  Simplification: any other
      text, which Python would take as an expression to run, is a SyntaxError here.  Quotients are those of
      floats that hold the two numbers, which is Python's result for numbers below 2^53. *)
  Definition evalInt (s : str) : res Z :=
    match s with
    | [] => Err SyntaxError
    | c :: r => if forallb (fun x => (48 <=? x) && (x <=? 57)) s && ((negb (c =? 48)) || forallb (fun x => x =? 48) s) then py_int s 10 else Err SyntaxError
    end.
  Definition evalRatio (s : str) : res (Z * option Z) :=
    let (sg, s) := match s with c :: r => if c =? 45 then (-1, r) else (1, s) | [] => (1, s) end in
    match py_split s 47 with
    | [a] => let* n := evalInt a in Ok (sg * n, None)
    | [a; b] => let* n := evalInt a in let* d := evalInt b in Ok (sg * n, Some d)
    | _ => Err SyntaxError
    end.
  Definition evalNumber (s : str) : res pynum :=
    let* (n, d) := evalRatio s in
    match d with
    | None => Ok (PyInt n)
    | Some d => if d =? 0 then Err ZeroDivisionError else Ok (true_div n d)
    end.

  Record characterData := mkChar { codePoint : Z; combiningClass : Z; name : str; generalCategory : str; bidi : bidiProperties; numericType : str;
    numericValue : option pynum; script : str; scriptExtensions : list str; block : str; decomp : decompProperties; joiningType : str; joiningGroup : str;
    isJoiningControl : bool; lineBreak : str; sentenceBreak : str; wordBreak : str; graphemeClusterBreak : str; eastAsianWidth : str; case : caseProperties;
    hangulSyllableType : str; jamoShortName : str; indic : indicProperties; verticalOrientation : str; binary : Z * dict bool; emoji : bool;
    emojiPresentation : bool; emojiModifier : bool; emojiModifierBase : bool; emojiComponent : bool; extendedPictograph : bool }.
  (** CharacterData.py:17-76 *)
  Definition newCharacterData : res characterData :=
    let p := getCharProperty in
    let b := getBooleanProperty in
    let* codePoint := py_int cp 16 in
    let* ccc := py_int (p (lit "ccc")) 10 in
    let* bidi := newBidiProperties in
    let nv := p (lit "nv") in
    let* value := (if str_eqb nv (lit "NaN") then Ok None else let* v := evalNumber nv in Ok (Some v)) in
    let* decomp := newDecompProperties in
    let* case := newCaseProperties in
    let* indic := newIndicProperties in
    let* binary := newBinaryProperties in
    Ok (mkChar codePoint ccc (py_replace (p (lit "na")) 35 cp) (p (lit "gc")) bidi (p (lit "nt")) value (p (lit "sc")) (py_split (p (lit "scx")) 32)
      (py_replace (p (lit "blk")) 95 (lit " ")) decomp (p (lit "jt")) (py_replace (p (lit "jg")) 95 (lit " ")) (b (lit "Join_C")) (p (lit "lb"))
      (p (lit "SB")) (p (lit "WB")) (p (lit "GCB")) (p (lit "ea")) case (p (lit "hst")) (p (lit "JSN")) indic (p (lit "vo")) binary (b (lit "Emoji"))
      (b (lit "EPres")) (b (lit "EMod")) (b (lit "EBase")) (b (lit "EComp")) (b (lit "ExtPict"))).
End Element.
