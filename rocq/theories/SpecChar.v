(** * What Unicode 13.0 says about the properties of a character, given other properties of it

    UAX #29 (text segmentation), UAX #11 and #14 (width and line breaking), UAX #31
    (identifiers), UAX #44 (derived properties and the values of unassigned code points). *)
From Coq Require Import ZArith List Bool.
Import ListNotations.
Open Scope Z_scope.

(** ** Names for numbers (uchar_h.py, Boundaries.py, EastAsianWidth.py, DecompositionType.py, CharDirection.py) *)
Definition Cn := 0. Definition Lu := 1. Definition Ll := 2. Definition Lt := 3. Definition Lm := 4. Definition Lo := 5.
Definition Mn := 6. Definition Me := 7. Definition Mc := 8. Definition Nd := 9. Definition Nl := 10. Definition Zs := 12.
Definition Zl := 13. Definition Zp := 14. Definition Cc := 15. Definition Cf := 16. Definition Co := 17. Definition Cs := 18.
Definition Pd := 19. Definition Ps := 20. Definition Pe := 21. Definition Pc := 22. Definition Po := 23. Definition Sm := 24.
Definition Sk := 26. Definition So := 27. Definition Pi := 28. Definition Pf := 29.
Definition Han := 17. Definition Hebrew := 19. Definition Hiragana := 20. Definition Katakana := 22.
Definition dt_Narrow := 10. Definition dt_Wide := 17.
Definition ea_Neutral := 0. Definition ea_Ambiguous := 1. Definition ea_Halfwidth := 2. Definition ea_Fullwidth := 3. Definition ea_Wide := 5.
Definition lb_Unknown := 0. Definition lb_Carriage_Return := 10. Definition lb_Glue := 12. Definition lb_Ideographic := 14.
Definition lb_Infix_Numeric := 16. Definition lb_Line_Feed := 17. Definition lb_Numeric := 19. Definition lb_Prefix_Numeric := 22.
Definition lb_Quotation := 23. Definition lb_Complex_Context := 24. Definition lb_Surrogate := 25. Definition lb_H2 := 31. Definition lb_H3 := 32.
Definition lb_JL := 33. Definition lb_JT := 34. Definition lb_JV := 35. Definition lb_Hebrew_Letter := 38. Definition lb_Regional_Indicator := 39.
Definition lb_E_Base := 40. Definition lb_E_Modifier := 41. Definition lb_ZWJ := 42.
Definition bc_L := 0. Definition bc_R := 1. Definition bc_ET := 4. Definition bc_CS := 6. Definition bc_B := 7. Definition bc_S := 8. Definition bc_WS := 9.
Definition bc_ON := 10. Definition bc_AL := 13. Definition bc_NSM := 17. Definition bc_BN := 18.
Definition jt_Join_Causing := 1. Definition jt_Transparent := 5.

(** ** What is known of a character *)
Record char := mkChar {
  category : Z; script : Z; width : Z; lineBreak : Z; sentenceBreak : Z; wordBreak : Z; graphemeBreak : Z; decompType : Z;
  White_Space : bool; Dash : bool; Math : bool; Alphabetic : bool; Ideographic : bool; Noncharacter : bool; Grapheme_Extend : bool;
  Unified_Ideograph : bool; Default_Ignorable : bool; XID_Start : bool; XID_Continue : bool; ID_Start : bool; ID_Continue : bool; Grapheme_Base : bool;
  Sentence_Terminal : bool; Variation_Selector : bool; Pattern_Syntax : bool; Pattern_White_Space : bool; Prepended_Concatenation_Mark : bool;
  Extended_Pictographic : bool; Emoji_Modifier : bool; Emoji_Modifier_Base : bool;
  caseType : Z; (** 0 none, 1 Lowercase, 2 Uppercase, 3 title case *) caseIgnorable : bool;
  bidiClass : Z; joiningType : Z; bracketType : Z; mirrored : bool }.

(** ** Sets of code points given by ranges *)
Definition among (c : Z) (l : list (Z * Z)) : bool := existsb (fun '(x, y) => (x <=? c) && (c <=? y)) l.
Definition is (c : Z) : Z * Z := (c, c).
Definition one_of (x : Z) (l : list Z) : bool := existsb (Z.eqb x) l.

Definition hangul := [(0xAC00, 0xD7A3)].
Definition CR := [is 0xD]. Definition LF := [is 0xA]. Definition ZWJ := [is 0x200D]. Definition ZWNJ_ZWJ := [(0x200C, 0x200D)].
Definition regionalIndicators := [(0x1F1E6, 0x1F1FF)].
Definition jamoL := [(0x1100, 0x115F); (0xA960, 0xA97C)].
Definition jamoV := [(0x1160, 0x11A7); (0xD7B0, 0xD7C6)].
Definition jamoT := [(0x11A8, 0x11FF); (0xD7CB, 0xD7FB)].
(** an LV syllable *)
Definition isLV (c : Z) : bool := among c hangul && ((c - 0xAC00) mod 28 =? 0).

(** ** UAX #29, table 2: Grapheme_Cluster_Break

    [m] tells of the sets of code points whether the character is in them, [lv] whether it is an LV syllable. *)
Definition prependLetters := [is 0xD4E; (0x111C2, 0x111C3); is 0x1193F; is 0x11941; is 0x11A3A; (0x11A84, 0x11A89); is 0x11D46].
Definition notSpacing := [(0x102B, 0x102C); is 0x1038; (0x1062, 0x1064); (0x1067, 0x106D); is 0x1083; (0x1087, 0x108C); is 0x108F; (0x109A, 0x109C);
  is 0x1A61; (0x1A63, 0x1A64); is 0xAA7B; is 0xAA7D].
Definition spacingVowels := [is 0xE33; is 0xEB3].
Definition graphemeBreakSaid (m : list (Z * Z) -> bool) (lv : bool) (k : char) : Z :=
  if m CR then 2 (* CR *)
  else if m LF then 5 (* LF *)
  else if m ZWJ then 17 (* ZWJ *)
  else if Grapheme_Extend k || Emoji_Modifier k then 3 (* Extend *)
  else if Prepended_Concatenation_Mark k || m prependLetters then 11 (* Prepend *)
  else if one_of (category k) [Zl; Zp; Cc; Cf] || ((category k =? Cn) && Default_Ignorable k) then 1 (* Control *)
  else if m regionalIndicators then 12 (* Regional_Indicator *)
  else if ((category k =? Mc) && negb (m notSpacing)) || m spacingVowels then 10 (* SpacingMark *)
  else if m jamoL then 4 (* L *)
  else if m jamoV then 9 (* V *)
  else if m jamoT then 8 (* T *)
  else if m hangul then (if lv then 6 (* LV *) else 7 (* LVT *))
  else 0 (* Other *).

(** ** UAX #29, table 3: Word_Break *)
Definition newlines := [(0xB, 0xC); is 0x85; (0x2028, 0x2029)].
Definition ZWSP := [is 0x200B].
Definition katakanaToo := [(0x3031, 0x3035); (0x309B, 0x309C); is 0x30A0; is 0x30FC; is 0xFF70].
Definition singleQuote := [is 0x27]. Definition doubleQuote := [is 0x22].
Definition midNumLet := [is 0x2E; (0x2018, 0x2019); is 0x2024; is 0xFE52; is 0xFF07; is 0xFF0E].
Definition midLetter := [is 0x3A; is 0xB7; is 0x387; is 0x55F; is 0x5F4; is 0x2027; is 0xFE13; is 0xFE55; is 0xFF1A].
Definition midNumToo := [is 0x66C; is 0xFE50; is 0xFE54; is 0xFF0C; is 0xFF1B].
Definition fullwidthDigits := [(0xFF10, 0xFF19)].
Definition NNBSP := [is 0x202F].
Definition lettersToo := [(0x2C2, 0x2C5); (0x2D2, 0x2D7); (0x2DE, 0x2DF); (0x2E5, 0x2EB); is 0x2ED; (0x2EF, 0x2FF); (0x55A, 0x55C); is 0x55E; is 0x58A; is 0x5F3;
  (0xA708, 0xA716); (0xA720, 0xA721); (0xA789, 0xA78A); is 0xAB5B].
Definition wordBreakSaid (m : list (Z * Z) -> bool) (k : char) : Z :=
  if m CR then 8 (* CR *)
  else if m LF then 10 (* LF *)
  else if m newlines then 12 (* Newline *)
  else if m ZWJ then 21 (* ZWJ *)
  else if Grapheme_Extend k || (category k =? Mc) || Emoji_Modifier k then 9 (* Extend *)
  else if m regionalIndicators then 13 (* Regional_Indicator *)
  else if (category k =? Cf) && negb (m ZWSP) then 2 (* Format *)
  else if (script k =? Katakana) || m katakanaToo then 3 (* Katakana *)
  else if (script k =? Hebrew) && (category k =? Lo) then 14 (* Hebrew_Letter *)
  else if m singleQuote then 15 (* Single_Quote *)
  else if m doubleQuote then 16 (* Double_Quote *)
  else if m midNumLet then 11 (* MidNumLet *)
  else if m midLetter then 4 (* MidLetter *)
  else if (lineBreak k =? lb_Infix_Numeric) || m midNumToo then 5 (* MidNum *)
  else if (lineBreak k =? lb_Numeric) || m fullwidthDigits then 6 (* Numeric *)
  else if (category k =? Pc) || m NNBSP then 7 (* ExtendNumLet *)
  else if (category k =? Zs) && negb (lineBreak k =? lb_Glue) then 22 (* WSegSpace *)
  else if (Alphabetic k || m lettersToo) && negb (Ideographic k) && negb (lineBreak k =? lb_Complex_Context) && negb (script k =? Hiragana) then 1 (* ALetter *)
  else 0 (* Other *).

(** ** UAX #29, table 4: Sentence_Break *)
Definition separators := [is 0x85; (0x2028, 0x2029)].
Definition mkhedruli := [(0x10D0, 0x10FA); (0x10FD, 0x10FF)]. Definition mtavruli := [(0x1C90, 0x1CBA); (0x1CBD, 0x1CBF)].
Definition sentenceLetters := [is 0xA0; is 0x5F3].
Definition aTerms := [is 0x2E; is 0x2024; is 0xFE52; is 0xFF0E].
Definition continues := [(0x2C, 0x2D); is 0x3A; is 0x55D; (0x60C, 0x60D); is 0x7F8; is 0x1802; is 0x1808; (0x2013, 0x2014); is 0x3001; (0xFE10, 0xFE11); is 0xFE13;
  (0xFE31, 0xFE32); (0xFE50, 0xFE51); is 0xFE55; is 0xFE58; is 0xFE63; (0xFF0C, 0xFF0D); is 0xFF1A; is 0xFF64].
Definition sentenceBreakSaid (m : list (Z * Z) -> bool) (k : char) : Z :=
  if m CR then 11 (* CR *)
  else if m LF then 13 (* LF *)
  else if m separators then 7 (* Sep *)
  else if m ZWJ || Grapheme_Extend k || (category k =? Mc) then 12 (* Extend *)
  else if category k =? Cf then 3 (* Format *)
  else if White_Space k then 8 (* Sp *)
  else if (caseType k =? 1) && negb (m mkhedruli) then 4 (* Lower *)
  else if ((caseType k =? 2) || (category k =? Lt)) && negb (m mtavruli) then 10 (* Upper *)
  else if Alphabetic k || m sentenceLetters then 6 (* OLetter *)
  else if (lineBreak k =? lb_Numeric) || m fullwidthDigits then 5 (* Numeric *)
  else if m aTerms then 1 (* ATerm *)
  else if m continues then 14 (* SContinue *)
  else if Sentence_Terminal k then 9 (* STerm *)
  else if one_of (category k) [Ps; Pe; Pi; Pf] || (lineBreak k =? lb_Quotation) then 2 (* Close *)
  else 0 (* Other *).

Definition breakSets := [hangul; CR; LF; ZWJ; regionalIndicators; jamoL; jamoV; jamoT; prependLetters; notSpacing; spacingVowels; newlines; ZWSP; katakanaToo;
  singleQuote; doubleQuote; midNumLet; midLetter; midNumToo; fullwidthDigits; NNBSP; lettersToo; separators; mkhedruli; mtavruli; sentenceLetters; aTerms; continues].
Definition breaks_ok (m : list (Z * Z) -> bool) (lv : bool) (k : char) : bool :=
  (graphemeBreak k =? graphemeBreakSaid m lv k) && (wordBreak k =? wordBreakSaid m k) && (sentenceBreak k =? sentenceBreakSaid m k).

(** ** UAX #44: derived properties *)
Definition Other_Lowercase := [is 0xAA; is 0xBA; (0x2B0, 0x2B8); (0x2C0, 0x2C1); (0x2E0, 0x2E4); is 0x345; is 0x37A; (0x1D2C, 0x1D6A); is 0x1D78; (0x1D9B, 0x1DBF);
  is 0x2071; is 0x207F; (0x2090, 0x209C); (0x2170, 0x217F); (0x24D0, 0x24E9); (0x2C7C, 0x2C7D); (0xA69C, 0xA69D); is 0xA770; (0xA7F8, 0xA7F9); (0xAB5C, 0xAB5F)].
Definition Other_Uppercase := [(0x2160, 0x216F); (0x24B6, 0x24CF); (0x1F130, 0x1F149); (0x1F150, 0x1F169); (0x1F170, 0x1F189)].
Definition Other_ID_Start := [(0x1885, 0x1886); is 0x2118; is 0x212E; (0x309B, 0x309C)].
Definition Other_ID_Continue := [is 0xB7; is 0x387; (0x1369, 0x1371); is 0x19DA].
(** removed from XID_Start, the first eight from XID_Continue, too: NFKC would move them out of an identifier *)
Definition notXID := [is 0x37A; (0x309B, 0x309C); (0xFC5E, 0xFC63); (0xFDFA, 0xFDFB); is 0xFE70; is 0xFE72; is 0xFE74; is 0xFE76; is 0xFE78; is 0xFE7A; is 0xFE7C; is 0xFE7E].
Definition notXIDStart := [is 0xE33; is 0xEB3; (0xFF9E, 0xFF9F)].
Definition Other_Default_Ignorable := [is 0x34F; (0x115F, 0x1160); (0x17B4, 0x17B5); is 0x2065; is 0x3164; is 0xFFA0; (0xFFF0, 0xFFF8); is 0xE0000; (0xE0002, 0xE001F);
  (0xE0080, 0xE00FF); (0xE01F0, 0xE0FFF)].
Definition annotations := [(0xFFF9, 0xFFFB); (0x13430, 0x13438)].
Definition whiteControls := [(0x9, 0xD); is 0x85].
Definition patternWhite := [(0x9, 0xD); is 0x20; is 0x85; (0x200E, 0x200F); (0x2028, 0x2029)].
Definition otherDashes := [is 0x2053; is 0x207B; is 0x208B; is 0x2212].
Definition derived_ok (m : list (Z * Z) -> bool) (k : char) : bool :=
  let g := category k in
  Bool.eqb (caseType k =? 1) ((g =? Ll) || m Other_Lowercase) &&
  Bool.eqb (caseType k =? 2) ((g =? Lu) || m Other_Uppercase) &&
  Bool.eqb (caseType k =? 3) (g =? Lt) &&
  Bool.eqb (caseIgnorable k) (one_of g [Mn; Me; Cf; Lm; Sk] || one_of (wordBreak k) [4; 11; 15]) &&
  Bool.eqb (ID_Start k) ((one_of g [Lu; Ll; Lt; Lm; Lo; Nl] || m Other_ID_Start) && negb (Pattern_Syntax k) && negb (Pattern_White_Space k)) &&
  Bool.eqb (ID_Continue k) ((ID_Start k || one_of g [Mn; Mc; Nd; Pc] || m Other_ID_Continue) && negb (Pattern_Syntax k) && negb (Pattern_White_Space k)) &&
  Bool.eqb (XID_Start k) (ID_Start k && negb (m notXID) && negb (m notXIDStart)) &&
  Bool.eqb (XID_Continue k) (ID_Continue k && negb (m notXID)) &&
  Bool.eqb (Default_Ignorable k) (((g =? Cf) || Variation_Selector k || m Other_Default_Ignorable) && negb (Prepended_Concatenation_Mark k) &&
    negb (White_Space k) && negb (m annotations)) &&
  Bool.eqb (Grapheme_Base k) (negb (one_of g [Cc; Cf; Cs; Co; Cn; Zl; Zp]) && negb (Grapheme_Extend k)) &&
  Bool.eqb (White_Space k) (one_of g [Zs; Zl; Zp] || m whiteControls) &&
  Bool.eqb (Pattern_White_Space k) (m patternWhite) &&
  Bool.eqb (Dash k) ((g =? Pd) || m otherDashes) &&
  implb (one_of g [Mn; Me]) (Grapheme_Extend k) &&
  implb (g =? Sm) (Math k) &&
  implb (negb (caseType k =? 0) || one_of g [Lt; Lm; Lo; Nl]) (Alphabetic k) &&
  implb (Alphabetic k) (negb (caseType k =? 0) || one_of g [Lt; Lm; Lo; Nl; Mn; Mc; So]) &&
  implb (Unified_Ideograph k) ((g =? Lo) && (script k =? Han)).

(** ** Width, line breaking and bidirectional classes *)
Definition won := [is 0x20A9].
Definition arabicSeparators := [(0x66B, 0x66C)].
Definition letterMarks := [is 0xCBF; is 0xCC6; (0x11A07, 0x11A08); is 0x11C3F].
Definition separatorControls := [(0x1C, 0x1F)].
Definition noBreakSpaces := [is 0xA0; is 0x202F].
Definition notTransparent := [(0x600, 0x605); is 0x6DD; is 0x8E2; is 0x180E; (0x200C, 0x200D); (0x2066, 0x2069); is 0x110BD; is 0x110CD].
Definition adlamMark := [is 0x1E94B].
Definition joinCausing := [is 0x640; is 0x7FA; is 0x180A; is 0x200D].
Definition layout_ok (m : list (Z * Z) -> bool) (k : char) : bool :=
  let g := category k in let b := lineBreak k in
  Bool.eqb (width k =? ea_Fullwidth) (decompType k =? dt_Wide) &&
  Bool.eqb (width k =? ea_Halfwidth) ((decompType k =? dt_Narrow) || m won) &&
  implb (Ideographic k) (width k =? ea_Wide) &&
  implb (g =? Co) ((width k =? ea_Ambiguous) && (b =? lb_Unknown)) &&
  Bool.eqb (b =? lb_Surrogate) (g =? Cs) &&
  Bool.eqb (b =? lb_E_Base) (Emoji_Modifier_Base k) &&
  Bool.eqb (b =? lb_E_Modifier) (Emoji_Modifier k) &&
  Bool.eqb (b =? lb_Hebrew_Letter) ((script k =? Hebrew) && (g =? Lo)) &&
  Bool.eqb (b =? lb_Carriage_Return) (m CR) && Bool.eqb (b =? lb_Line_Feed) (m LF) && Bool.eqb (b =? lb_ZWJ) (m ZWJ) &&
  Bool.eqb (b =? lb_Regional_Indicator) (m regionalIndicators) &&
  Bool.eqb (b =? lb_JL) (m jamoL) && Bool.eqb (b =? lb_JV) (m jamoV) && Bool.eqb (b =? lb_JT) (m jamoT) &&
  Bool.eqb (b =? lb_H2) (graphemeBreak k =? 6) && Bool.eqb (b =? lb_H3) (graphemeBreak k =? 7) &&
  Bool.eqb (b =? lb_Numeric) (((g =? Nd) && negb (m fullwidthDigits)) || m arabicSeparators) &&
  Bool.eqb (bidiClass k =? bc_NSM) (one_of g [Mn; Me] && negb (m letterMarks)) &&
  Bool.eqb (one_of (bidiClass k) [bc_B; bc_S; bc_WS]) ((White_Space k && negb (m noBreakSpaces)) || m separatorControls) &&
  implb (m noBreakSpaces) (bidiClass k =? bc_CS) &&
  implb (one_of g [Co; Cs]) (bidiClass k =? bc_L) &&
  implb (one_of g [Lu; Ll; Lt]) (one_of (bidiClass k) [bc_L; bc_R]) &&
  implb (mirrored k) (bidiClass k =? bc_ON) &&
  Bool.eqb (negb (bracketType k =? 0)) (one_of g [Ps; Pe] && mirrored k) &&
  Bool.eqb (joiningType k =? jt_Transparent) ((one_of g [Mn; Me; Cf] && negb (m notTransparent)) || m adlamMark) &&
  Bool.eqb (joiningType k =? jt_Join_Causing) (m joinCausing).

(** ** Unassigned code points: the values reserved for the scripts that may come *)
Definition arabicBlocks := [(0x600, 0x7BF); (0x860, 0x86F); (0x8A0, 0x8FF); (0xFB50, 0xFDCF); (0xFDF0, 0xFDFF); (0xFE70, 0xFEFF); (0x10D00, 0x10D3F); (0x10F30, 0x10F6F);
  (0x1EC70, 0x1ECBF); (0x1ED00, 0x1ED4F); (0x1EE00, 0x1EEFF)].
Definition rightToLeft := [(0x590, 0x5FF); (0x7C0, 0x85F); (0x870, 0x89F); (0xFB1D, 0xFB4F); (0x10800, 0x10CFF); (0x10D40, 0x10F2F); (0x10F70, 0x10FFF); (0x1E800, 0x1EC6F);
  (0x1ECC0, 0x1ECFF); (0x1ED50, 0x1EDFF); (0x1EF00, 0x1EFFF)].
Definition currency := [(0x20A0, 0x20CF)].
Definition ideographs := [(0x3400, 0x4DBF); (0x4E00, 0x9FFF); (0xF900, 0xFAFF); (0x20000, 0x2FFFD); (0x30000, 0x3FFFD)].
Definition unassigned_ok (m : list (Z * Z) -> bool) (k : char) : bool :=
  if negb (category k =? Cn) then true else
    ((bidiClass k =? (if Noncharacter k || Default_Ignorable k then bc_BN else if m arabicBlocks then bc_AL else if m rightToLeft then bc_R
                      else if m currency then bc_ET else bc_L)) &&
     (width k =? (if m ideographs then ea_Wide else ea_Neutral)) &&
     (lineBreak k =? (if m ideographs || Extended_Pictographic k then lb_Ideographic else if m currency then lb_Prefix_Numeric else lb_Unknown)) &&
     (graphemeBreak k =? (if Default_Ignorable k then 1 else 0)) && (wordBreak k =? 0) && (sentenceBreak k =? 0) && (decompType k =? 0) && (caseType k =? 0) &&
     (joiningType k =? 0) && (bracketType k =? 0) && negb (mirrored k) && negb (Alphabetic k) && negb (Ideographic k) && negb (ID_Continue k) && negb (White_Space k)).
Definition derivedSets := [hangul; Other_Lowercase; Other_Uppercase; Other_ID_Start; Other_ID_Continue; notXID; notXIDStart; Other_Default_Ignorable; annotations;
  whiteControls; patternWhite; otherDashes].
Definition layoutSets := [hangul; CR; LF; ZWJ; regionalIndicators; jamoL; jamoV; jamoT; fullwidthDigits; won; arabicSeparators; letterMarks; separatorControls; noBreakSpaces;
  notTransparent; adlamMark; joinCausing].
Definition unassignedSets := [hangul; arabicBlocks; rightToLeft; currency; ideographs].
