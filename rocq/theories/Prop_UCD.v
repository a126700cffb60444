(** * Properties C52, C53, C73 - C78: the UCD file.

    [attr char group k]  the value of attribute [k] in the character's attributes
                         followed by the group's, or the empty text;
    [yes]                that value is "Y";
    [numeral base s n]   [s] is a numeral for [n] (UCDFacts.v). *)
From Coq Require Import ZArith List Bool Lia String.
From Verif Require Import Py PyStr Dict Utilities UtilitiesFacts UnicodeSet SpecSet UnicodeSetReach UnicodeSetLaws CharProps CharNames NamesFacts UCD UCDFacts UCDIndex UCDIndexFacts.
Import ListNotations.
Open Scope Z_scope.
Local Notation length := List.length.
Local Notation concat := List.concat.

(** an element for U+00DF as in the file, and one for its group *)
Definition dict_of (l : list (string * string)) : element := map (fun p => (lit (fst p), lit (snd p))) l.
Definition latin : element := dict_of [("ccc", "0"); ("gc", "Lu"); ("bc", "L"); ("Bidi_M", "N"); ("bmg", ""); ("bpt", "n"); ("bpb", "#"); ("nt", "None");
  ("nv", "NaN"); ("sc", "Latn"); ("scx", "Latn"); ("blk", "Latin_1_Sup"); ("dt", "none"); ("dm", "#"); ("jt", "U"); ("jg", "No_Joining_Group"); ("Alpha", "Y");
  ("suc", "#"); ("slc", "#"); ("stc", "#"); ("uc", "#"); ("lc", "#"); ("tc", "#"); ("scf", "#"); ("cf", "#"); ("NFKC_CF", "#"); ("FC_NFKC", "")]%string.
Definition sharp : element := dict_of [("cp", "00DF"); ("na", "LATIN SMALL LETTER SHARP S"); ("gc", "Ll"); ("uc", "0053 0053"); ("tc", "0053 0073");
  ("cf", "0073 0073"); ("NFKC_CF", "0073 0073"); ("Lower", "Y")]%string.

(** ** C52 *)
Theorem C52_lookup : forall char group k,
  (forall v, dict_find char k = Some v -> getCharProperty char group k = v) /\
  (forall v, dict_find char k = None -> dict_find group k = Some v -> getCharProperty char group k = v) /\
  (dict_find char k = None -> dict_find group k = None -> getCharProperty char group k = []) /\
  (getBooleanProperty char group k = true <-> getCharProperty char group k = lit "Y").
Proof.
  intros char group k. unfold getBooleanProperty, getCharProperty. repeat split.
  - intros v ->. reflexivity.
  - intros v -> ->. reflexivity.
  - intros -> ->. reflexivity.
  - intros H. apply str_eqb_eq. exact H.
  - intros ->. apply str_eqb_refl.
Qed.
Print Assumptions C52_lookup.
(** so it does not matter which attributes of a character are written at its group *)
Theorem C52_grouping : forall char group char' group', (forall k, getCharProperty char group k = getCharProperty char' group' k) ->
  newCharacterData char group = newCharacterData char' group'.
Proof. exact grouping. Qed.
Print Assumptions C52_grouping.
Example C52_case : getCharProperty sharp latin (lit "gc") = lit "Ll" /\ getCharProperty sharp latin (lit "sc") = lit "Latn" /\
  getCharProperty sharp latin (lit "hst") = [] /\ getBooleanProperty sharp latin (lit "Alpha") = true /\ getBooleanProperty sharp latin (lit "Bidi_M") = false /\
  newCharacterData sharp latin = newCharacterData (sharp ++ latin) [].
Proof. vm_compute. repeat split. Qed.

(** ** C53 *)
Theorem C53_list : forall char group k self texts codes, numeral 16 (attr char group "cp") self -> self <= 0x10FFFF -> texts <> [] -> Forall2 (numeral 16) texts codes ->
  code_points codes -> attr char group k = join (lit " ") texts ->
  getCodePointsProperty char group (lit k) = Ok codes /\ dmToString self (attr char group k) false = Ok (Some codes) /\ dmToString self (attr char group k) true = Ok (Some codes).
Proof.
  intros char group k self texts codes C L N F V E. split; [|split].
  - apply (getCodePoints_ok char group k self); auto. right. exists texts. auto.
  - apply dmToString_ok. right. exists texts, codes. auto 6.
  - apply dmToString_pound; [pose proof (numeral_nonneg 16 _ _ ltac:(lia) C); lia|]. right. right. exists texts, codes. auto 6.
Qed.
Print Assumptions C53_list.
Theorem C53_self : forall char group k self, numeral 16 (attr char group "cp") self -> self <= 0x10FFFF -> attr char group k = [] \/ attr char group k = lit "#" ->
  getCodePointsProperty char group (lit k) = Ok [self].
Proof. intros char group k self C L E. apply (getCodePoints_ok char group k self); auto. left. auto. Qed.
Print Assumptions C53_self.
(** every code point can be written as [f"{c:04X}"] *)
Theorem C53_written : forall char group k self codes, numeral 16 (attr char group "cp") self -> self <= 0x10FFFF -> codes <> [] -> code_points codes ->
  attr char group k = join (lit " ") (map (formatHex 4) codes) -> getCodePointsProperty char group (lit k) = Ok codes.
Proof.
  intros char group k self codes C L N V E. apply (C53_list char group k self (map (formatHex 4) codes) codes); auto.
  - destruct codes; [congruence|discriminate].
  - clear - V. induction V as [|c r H V IH]; cbn [map]; constructor; auto. apply formatHex_numeral. lia.
Qed.
Print Assumptions C53_written.
(** a list with a space too many is an error, never a shorter list *)
Theorem C53_space : forall char group k, attr char group k <> [] -> In [] (py_split (attr char group k) 32) -> getCodePointsProperty char group (lit k) = Err ValueError.
Proof. exact missing_piece. Qed.
Print Assumptions C53_space.
Example C53_case : numeral 16 (attr sharp latin "cp") 0xDF /\ attr sharp latin "uc" = join (lit " ") (map (formatHex 4) [0x53; 0x53]) /\
  getCodePointsProperty sharp latin (lit "uc") = Ok [0x53; 0x53] /\ getCodePointsProperty sharp latin (lit "lc") = Ok [0xDF] /\
  getCodePointsProperty (dict_of [("cp", "41"); ("uc", "53  53")]%string) [] (lit "uc") = Err ValueError.
Proof.
  split; [|vm_compute; repeat split]. split; [discriminate|]. split; [|reflexivity].
  repeat constructor; unfold is_digit; cbn; lia.
Qed.

(** ** C73: everything in a CharacterData object *)
(** the binary properties and their attributes *)
Definition binary_fields : list (string * string) := [
  ("whitespace", "WSpace"); ("dash", "Dash"); ("hyphen", "Hyphen"); ("quotationMark", "QMark"); ("terminalPunctuation", "Term");
  ("sentenceTerminalPunctuation", "STerm"); ("diacritic", "Dia"); ("extender", "Ext"); ("prependedConcatenationMark", "PCM"); ("softDotted", "SD");
  ("alphabetic", "Alpha"); ("otherAlphabetic", "OAlpha"); ("math", "Math"); ("otherMath", "OMath"); ("hexDigit", "Hex"); ("asciiHexDigit", "AHex");
  ("defaultIgnorable", "DI"); ("otherDefaultIgnorable", "ODI"); ("logicalOrderException", "LOE"); ("regionalIndicator", "RI"); ("graphemeBase", "Gr_Base");
  ("graphemeExtended", "Gr_Ext"); ("otherGraphemeExtended", "OGr_Ext"); ("graphemeLink", "Gr_Link"); ("ideographic", "Ideo"); ("unifiedIdeographic", "UIdeo");
  ("idsBinaryOperator", "IDSB"); ("idsTrinaryOperator", "IDST"); ("radical", "Radical"); ("deprecated", "Dep"); ("variationSelector", "VS");
  ("nonCharacterCodePoint", "NChar"); ("idStart", "IDS"); ("otherIDStart", "OIDS"); ("xIDStart", "XIDS"); ("idContinue", "IDC"); ("otherIDContinue", "OIDC");
  ("xIDContinue", "XIDC"); ("patternSyntax", "Pat_Syn"); ("patternWhitespace", "Pat_WS")]%string.
Theorem C73_record : forall char group self ccc mirror bracket value dm fc nkcf suc slc uc lc tc scf cf nfkc pieces blockWords groupWords scripts,
  let a := attr char group in
  let y := yes char group in
  numeral 16 (a "cp"%string) self -> self <= 0x10FFFF -> numeral 10 (a "ccc"%string) ccc ->
  (a "bmg"%string = [] /\ mirror = self) \/ numeral 16 (a "bmg"%string) mirror ->
  (a "bpb"%string = lit "#" /\ bracket = self) \/ numeral 16 (a "bpb"%string) bracket ->
  value_is (a "nv"%string) value -> decomposes (a "dm"%string) dm -> decomposes (a "FC_NFKC"%string) fc -> folds (a "NFKC_CF"%string) self nkcf ->
  maps_to (a "suc"%string) self suc -> maps_to (a "slc"%string) self slc -> maps_to (a "uc"%string) self uc -> maps_to (a "lc"%string) self lc ->
  maps_to (a "tc"%string) self tc -> maps_to (a "scf"%string) self scf -> maps_to (a "cf"%string) self cf -> maps_to (a "NFKC_CF"%string) self nfkc ->
  a "na"%string = join (lit "#") pieces -> Forall (fun p => ~ In 35 p) pieces ->
  a "blk"%string = join (lit "_") blockWords -> Forall (fun p => ~ In 95 p) blockWords ->
  a "jg"%string = join (lit "_") groupWords -> Forall (fun p => ~ In 95 p) groupWords ->
  a "scx"%string = join (lit " ") scripts -> scripts <> [] -> Forall (fun p => ~ In 32 p) scripts ->
  newCharacterData char group = Ok {|
    codePoint := self; combiningClass := ccc; name := join (a "cp"%string) pieces; generalCategory := a "gc"%string;
    bidi := {| bp_codePoint := self; bidiClass := a "bc"%string; bidiMirrored := y "Bidi_M"%string; bidiMirroredGlyph := mirror;
      bidiControl := y "Bidi_C"%string; bidiPairedBracketType := a "bpt"%string; bidiPairedBracket := bracket |};
    numericType := a "nt"%string; numericValue := value; script := a "sc"%string; scriptExtensions := scripts; block := join (lit " ") blockWords;
    decomp := {| dp_codePoint := self; decompositionType := a "dt"%string; decomposition := dm; compositionExclusion := y "CE"%string;
      fullCompositionExclusion := y "Comp_Ex"%string; nfcQuickCheck := a "NFC_QC"%string; nfdQuickCheck := a "NFD_QC"%string; nfkcQuickCheck := a "NFKC_QC"%string;
      nfkdQuickCheck := a "NFKD_QC"%string; expandOnNFC := y "XO_NFC"%string; expandOnNFD := y "XO_NFD"%string; expandOnNFKC := y "XO_NFKC"%string;
      expandOnNFKD := y "XO_NFKD"%string; nfkcFullClosure := fc; nfkcCaseFolded := nkcf |};
    joiningType := a "jt"%string; joiningGroup := join (lit " ") groupWords; isJoiningControl := y "Join_C"%string; lineBreak := a "lb"%string;
    sentenceBreak := a "SB"%string; wordBreak := a "WB"%string; graphemeClusterBreak := a "GCB"%string; eastAsianWidth := a "ea"%string;
    case := {| cs_codePoint := self; upper := y "Upper"%string; lower := y "Lower"%string; otherUpper := y "OUpper"%string; otherLower := y "OLower"%string;
      simpleUpperCase := suc; simpleLowerCase := slc; simpleTitleCase := a "stc"%string; upperCase := uc; lowerCase := lc; titleCase := tc;
      simpleCaseFolding := scf; caseFolding := cf; caseIgnorable := y "CI"%string; cased := y "Cased"%string; changesWhenCaseFolded := y "CWCF"%string;
      changesWhenCasedMapped := y "CWCM"%string; changesWhenLowercased := y "CWL"%string; changesWhenNFKCCaseFolded := y "CWKCF"%string;
      changesWhenTitlecased := y "CWT"%string; changesWhenUppercased := y "CWU"%string; nkfcCasefold := nfkc |};
    hangulSyllableType := a "hst"%string; jamoShortName := a "JSN"%string;
    indic := {| in_codePoint := self; syllabicCategory := a "InSC"%string; positionalCategory := a "InPC"%string |};
    verticalOrientation := a "vo"%string; binary := (self, map (fun p => (lit (fst p), y (snd p))) binary_fields); emoji := y "Emoji"%string;
    emojiPresentation := y "EPres"%string; emojiModifier := y "EMod"%string; emojiModifierBase := y "EBase"%string; emojiComponent := y "EComp"%string;
    extendedPictograph := y "ExtPict"%string |}.
Proof.
  intros char group self ccc mirror bracket value dm fc nkcf suc slc uc lc tc scf cf nfkc pieces blockWords groupWords scripts a y
    Hcp Hmax Hccc Hbmg Hbpb Hnv Hdm Hfc Hkcf Hsuc Hslc Huc Hlc Htc Hscf Hcf Hnfkc Hna Fna Hblk Fblk Hjg Fjg Hscx Nscx Fscx.
  unfold newCharacterData, newBidiProperties, newDecompProperties, newCaseProperties, newIndicProperties, cp. cbv zeta. rewrite !getCharProperty_attr, !getBooleanProperty_yes.
  fold a y. rewrite (py_int_numeral 16 _ self (or_intror eq_refl) Hcp), (py_int_numeral 10 _ ccc (or_introl eq_refl) Hccc). cbn [bind].
  rewrite (mirror_ok _ self mirror Hbmg). cbn [bind]. rewrite (bracket_ok _ self bracket Hbpb). cbn [bind]. rewrite (value_ok _ _ Hnv). cbn [bind].
  rewrite (dmToString_ok self _ _ Hdm). cbn [bind]. rewrite (dmToString_ok self _ _ Hfc). cbn [bind].
  rewrite (dmToString_pound self _ nkcf (conj (numeral_nonneg 16 _ _ (fun H => ltac:(discriminate H)) Hcp) Hmax) Hkcf). cbn [bind].
  rewrite (getCodePoints_ok _ _ _ self _ Hcp Hmax Hsuc). cbn [bind]. rewrite (getCodePoints_ok _ _ _ self _ Hcp Hmax Hslc). cbn [bind].
  rewrite (getCodePoints_ok _ _ _ self _ Hcp Hmax Huc). cbn [bind]. rewrite (getCodePoints_ok _ _ _ self _ Hcp Hmax Hlc). cbn [bind].
  rewrite (getCodePoints_ok _ _ _ self _ Hcp Hmax Htc). cbn [bind]. rewrite (getCodePoints_ok _ _ _ self _ Hcp Hmax Hscf). cbn [bind].
  rewrite (getCodePoints_ok _ _ _ self _ Hcp Hmax Hcf). cbn [bind]. rewrite (getCodePoints_ok _ _ _ self _ Hcp Hmax Hnfkc). cbn [bind].
  rewrite (binary_ok char group self Hcp). cbn [bind]. fold y.
  rewrite Hna, Hblk, Hjg, Hscx. change (lit "#") with [35]. change (lit "_") with [95]. change (join (lit " ") scripts) with (join [32] scripts).
  rewrite !replace_join by assumption. rewrite split_join by assumption. reflexivity.
Qed.
Print Assumptions C73_record.
Example C73_case : match newCharacterData sharp latin with
  | Ok d => codePoint d = 0xDF /\ name d = lit "LATIN SMALL LETTER SHARP S" /\ generalCategory d = lit "Ll" /\ block d = lit "Latin 1 Sup" /\ joiningGroup d = lit "No Joining Group" /\
      upperCase (case d) = [0x53; 0x53] /\ lowerCase (case d) = [0xDF] /\ decomposition (decomp d) = None /\ nfkcCaseFolded (decomp d) = Some [0x73; 0x73] /\
      dict_find (snd (binary d)) (lit "alphabetic") = Some true /\ lower (case d) = true /\ numericValue d = None /\ bidiPairedBracket (bidi d) = 0xDF
  | Err _ => False
  end.
Proof. vm_compute. repeat split. Qed.
(** the theorem applies to these elements *)
Ltac numeral_tac := split; [discriminate|split; [repeat constructor; unfold is_digit; cbn; lia|reflexivity]].
Ltac list_tac l := right; exists l; split; [discriminate|split; [reflexivity|split; [repeat (apply Forall2_cons; [numeral_tac|]); apply Forall2_nil|repeat (apply Forall_cons; [lia|]); apply Forall_nil]]].
Example C73_applies : exists d, newCharacterData sharp latin = Ok d /\ codePoint d = 0xDF.
Proof.
  eexists. split.
  { apply (C73_record sharp latin 0xDF 0 0xDF 0xDF None None None (Some [0x73; 0x73]) [0xDF] [0xDF] [0x53; 0x53] [0xDF] [0x53; 0x73] [0xDF] [0x73; 0x73] [0x73; 0x73]
      [lit "LATIN SMALL LETTER SHARP S"] [lit "Latin"; lit "1"; lit "Sup"] [lit "No"; lit "Joining"; lit "Group"] [lit "Latn"]).
    all: match goal with
    | |- numeral _ _ _ => numeral_tac
    | |- _ \/ numeral _ _ _ => left; split; reflexivity
    | |- value_is _ _ => left; split; reflexivity
    | |- decomposes _ None => left; split; [first [left; reflexivity|right; reflexivity]|reflexivity]
    | |- maps_to _ _ [_] => left; split; [right; reflexivity|reflexivity]
    | |- maps_to _ _ [0x53; 0x53] => list_tac (map lit ["0053"; "0053"]%string)
    | |- maps_to _ _ [0x53; 0x73] => list_tac (map lit ["0053"; "0073"]%string)
    | |- maps_to _ _ _ => list_tac (map lit ["0073"; "0073"]%string)
    | |- Forall _ _ => repeat constructor; cbn; intuition discriminate
    | |- folds _ _ _ => right; right; exists (map lit ["0073"; "0073"]%string), [0x73; 0x73]; split; [discriminate|]; split; [reflexivity|]; split; [repeat (apply Forall2_cons; [numeral_tac|]); apply Forall2_nil|]; split; [repeat (apply Forall_cons; [lia|]); apply Forall_nil|reflexivity]
    | |- _ <= _ => lia
    | |- _ => first [reflexivity|discriminate]
    end. }
  reflexivity.
Qed.
Example C73_values : value_is (lit "1/2") (Some (true_div 1 2)) /\ value_is (lit "-1/2") (Some (true_div (-1) 2)) /\ value_is (lit "1000000000000") (Some (PyInt 1000000000000)).
Proof.
  split; [|split].
  - right. right. exists (lit "1"), 1, (lit "2"), 2. split; [|split]; [| |split; [discriminate|left; auto]]; (split; [|left; discriminate]);
      (split; [discriminate|]); (split; [repeat constructor; unfold is_digit; cbn; lia|reflexivity]).
  - right. right. exists (lit "1"), 1, (lit "2"), 2. split; [|split]; [| |split; [discriminate|right; auto]]; (split; [|left; discriminate]);
      (split; [discriminate|]); (split; [repeat constructor; unfold is_digit; cbn; lia|reflexivity]).
  - right. left. exists (lit "1000000000000"), 1000000000000. split; [|left; auto]. split; [|left; discriminate].
    split; [discriminate|]. split; [repeat constructor; unfold is_digit; cbn; lia|reflexivity].
Qed.

(** ** C74: the simple title case is left as text, unlike the other mappings *)
Theorem C74_simple_title_refuted : exists char group r, newCaseProperties char group = Ok r /\ attr char group "cp" = lit "0061" /\ attr char group "stc" = lit "0041" /\
  attr char group "suc" = lit "0041" /\ simpleUpperCase r = [0x41] /\ simpleTitleCase r <> [0x41].
Proof.
  exists (dict_of [("cp", "0061"); ("suc", "0041"); ("stc", "0041")]%string), []. eexists. split; [vm_compute; reflexivity|]. repeat (split; [reflexivity|]). vm_compute. discriminate.
Qed.
Print Assumptions C74_simple_title_refuted.
(** what it is instead: the attribute, for every element *)
Theorem C74_simple_title_partial : forall char group r, newCaseProperties char group = Ok r -> simpleTitleCase r = attr char group "stc".
Proof. exact simple_title. Qed.
Print Assumptions C74_simple_title_partial.

(** ** C75: a missing bracket is an error, a missing mirror image is not *)
Theorem C75_missing_bracket_refuted : exists char, attr char [] "bmg" = [] /\ attr char [] "bpb" = [] /\ newBidiProperties char [] = Err ValueError /\
  exists r, newBidiProperties (char ++ [(lit "bpb", lit "#")]) [] = Ok r.
Proof. exists (dict_of [("cp", "0041")]%string). repeat (split; [reflexivity|]). eexists. vm_compute. reflexivity. Qed.
Print Assumptions C75_missing_bracket_refuted.
Theorem C75_bidi_partial : forall char group self mirror bracket, numeral 16 (attr char group "cp") self ->
  (attr char group "bmg" = [] /\ mirror = self) \/ numeral 16 (attr char group "bmg") mirror ->
  (attr char group "bpb" = lit "#" /\ bracket = self) \/ numeral 16 (attr char group "bpb") bracket ->
  exists r, newBidiProperties char group = Ok r /\ bidiMirroredGlyph r = mirror /\ bidiPairedBracket r = bracket.
Proof.
  intros char group self mirror bracket C M B. unfold newBidiProperties, cp. cbv zeta. rewrite !getCharProperty_attr, !getBooleanProperty_yes.
  rewrite (py_int_numeral 16 _ self (or_intror eq_refl) C). cbn [bind]. rewrite (mirror_ok _ self mirror M). cbn [bind]. rewrite (bracket_ok _ self bracket B). cbn [bind].
  eexists. split; [reflexivity|]. split; reflexivity.
Qed.
Print Assumptions C75_bidi_partial.
(** exactly when there is an object, and what it says; otherwise a ValueError *)
Theorem C75_exactly : forall char group r, newBidiProperties char group = Ok r <->
  exists self mirror bracket, py_int (attr char group "cp") 16 = Ok self /\
    (if str_eqb (attr char group "bmg") [] then mirror = self else py_int (attr char group "bmg") 16 = Ok mirror) /\
    (if str_eqb (attr char group "bpb") (lit "#") then bracket = self else py_int (attr char group "bpb") 16 = Ok bracket) /\
    r = mkBidi self (attr char group "bc") (str_eqb (attr char group "Bidi_M") (lit "Y")) mirror (str_eqb (attr char group "Bidi_C") (lit "Y")) (attr char group "bpt") bracket.
Proof.
  intros char group r. unfold newBidiProperties, cp, getBooleanProperty. cbv zeta. rewrite !getCharProperty_attr.
  destruct (py_int (attr char group "cp") 16) as [self|e]; cbn [bind]; [|split; [discriminate|intros (s & m & b & X & _); discriminate]].
  destruct (str_eqb (attr char group "bmg") []); [cbn [bind]|destruct (py_int (attr char group "bmg") 16) as [m|e]; cbn [bind]; [|split; [discriminate|intros (s & m & b & _ & X & _); discriminate]]];
  (destruct (str_eqb (attr char group "bpb") (lit "#")); [cbn [bind]|destruct (py_int (attr char group "bpb") 16) as [b0|e]; cbn [bind]; [|split; [discriminate|intros (s & m' & b & _ & _ & X & _); discriminate]]]);
  (split; [intros [= <-]; eexists _, _, _; repeat split; reflexivity|intros (s & m' & b & [= <-] & X & Y & ->)]).
  - subst. reflexivity.
  - injection Y as <-. subst. reflexivity.
  - injection X as <-. subst. reflexivity.
  - injection X as <-. injection Y as <-. reflexivity.
Qed.
Print Assumptions C75_exactly.
Lemma digitsLoop_err base : forall s acc b e, digitsLoop base s acc b = Err e -> e = ValueError.
Proof.
  induction s as [|c s IH]; intros acc b e; cbn [digitsLoop]; [destruct b; congruence|].
  repeat match goal with |- context [match ?x with _ => _ end] => destruct x; try congruence end; try apply IH.
Qed.
Lemma py_int_err s base e : py_int s base = Err e -> e = ValueError.
Proof.
  unfold py_int. destruct (strip s) as [|c r]; [congruence|]. destruct (c =? 43); [apply digitsLoop_err|]. destruct (c =? 45); [|apply digitsLoop_err].
  destruct (digitsLoop base (dropPrefix base r) 0 true) as [n|e'] eqn:E; cbn [bind]; [discriminate|]. intros [= <-]. exact (digitsLoop_err _ _ _ _ _ E).
Qed.
Theorem C75_errors : forall char group e, newBidiProperties char group = Err e -> e = ValueError.
Proof.
  intros char group e. unfold newBidiProperties. cbv zeta. intros H.
  repeat match type of H with
  | (let* _ := if ?c then _ else _ in _) = _ => destruct c; cbn [bind] in H
  | (let* _ := py_int ?s 16 in _) = _ => let E := fresh in destruct (py_int s 16) as [?|?] eqn:E; cbn [bind] in H; [|injection H as <-; exact (py_int_err s 16 _ E)]
  end; discriminate.
Qed.
Print Assumptions C75_errors.
Example C75_case : match newBidiProperties (dict_of [("cp", "0028"); ("bmg", "0029"); ("bpb", "0029"); ("bpt", "o"); ("Bidi_M", "Y")]%string) [] with
  | Ok r => bidiMirroredGlyph r = 0x29 /\ bidiPairedBracket r = 0x29 /\ bidiMirrored r = true
  | Err _ => False end.
Proof. vm_compute. repeat split. Qed.

(** ** C76: the two copies of NFKC_CF *)
Theorem C76_case_fold_copies_partial : forall char group data, newCharacterData char group = Ok data -> attr char group "NFKC_CF" <> [] ->
  nfkcCaseFolded (decomp data) = Some (nkfcCasefold (case data)).
Proof. exact fold_copies. Qed.
Print Assumptions C76_case_fold_copies_partial.
Lemma fold_missing char group data : newCharacterData char group = Ok data -> attr char group "NFKC_CF" = [] ->
  nfkcCaseFolded (decomp data) = None /\ nkfcCasefold (case data) = [codePoint data].
Proof.
  intros H N. unfold newCharacterData in H. cbv zeta in H.
  destruct (py_int (cp char group) 16) as [self|] eqn:Ecp; [cbn [bind] in H|discriminate].
  destruct (py_int _ 10) as [ccc|]; [cbn [bind] in H|discriminate]. destruct (newBidiProperties char group) as [b|]; [cbn [bind] in H|discriminate].
  match type of H with (let* _ := ?m in _) = _ => destruct m as [v|]; [cbn [bind] in H|discriminate] end.
  destruct (newDecompProperties char group) as [d|] eqn:ED; [cbn [bind] in H|discriminate].
  destruct (newCaseProperties char group) as [c|] eqn:EC; [cbn [bind] in H|discriminate].
  destruct (newIndicProperties char group) as [i|]; [cbn [bind] in H|discriminate]. destruct (newBinaryProperties char group) as [y|]; [cbn [bind] in H|discriminate].
  injection H as <-. cbn [decomp case codePoint].
  unfold newDecompProperties in ED. rewrite Ecp in ED. cbn [bind] in ED.
  destruct (dmToString self (getCharProperty char group (lit "dm")) false); [cbn [bind] in ED|discriminate].
  destruct (dmToString self (getCharProperty char group (lit "FC_NFKC")) false); [cbn [bind] in ED|discriminate].
  rewrite (getCharProperty_attr char group "NFKC_CF"), N in ED. change (dmToString self [] true) with (@Ok (option str) None) in ED. cbn [bind] in ED. cbv zeta in ED. injection ED as <-.
  unfold newCaseProperties in EC. rewrite Ecp in EC. cbn [bind] in EC. cbv zeta in EC.
  do 7 (match type of EC with (let* _ := ?m in _) = _ => destruct m; [cbn [bind] in EC|discriminate] end).
  destruct (getCodePointsProperty char group (lit "NFKC_CF")) as [z|] eqn:EZ; [cbn [bind] in EC|discriminate]. injection EC as <-. cbn [nfkcCaseFolded nkfcCasefold].
  split; [reflexivity|]. unfold getCodePointsProperty in EZ. rewrite Ecp in EZ. cbv zeta in EZ. rewrite (getCharProperty_attr char group "NFKC_CF"), N in EZ. cbn [bind zlen List.length] in EZ.
  change ((Z.of_nat 0 =? 0) || str_eqb [] (lit "#")) with true in EZ. cbv iota in EZ. unfold format_c in EZ. destruct ((0 <=? self) && (self <=? 0x10FFFF)); [|discriminate]. injection EZ as <-. reflexivity.
Qed.
(** and only then: with no attribute one copy is the character itself and the other is None *)
Theorem C76_exactly : forall char group data, newCharacterData char group = Ok data ->
  (nfkcCaseFolded (decomp data) = Some (nkfcCasefold (case data)) <-> attr char group "NFKC_CF" <> []) /\
  (attr char group "NFKC_CF" = [] -> nfkcCaseFolded (decomp data) = None /\ nkfcCasefold (case data) = [codePoint data]).
Proof.
  intros char group data H.
  assert (Q : attr char group "NFKC_CF" = [] -> nfkcCaseFolded (decomp data) = None /\ nkfcCasefold (case data) = [codePoint data]) by (apply fold_missing; exact H).
  split; [|exact Q]. split; [|apply fold_copies; exact H]. intros E N. destruct (Q N) as [Q1 _]. congruence.
Qed.
Print Assumptions C76_exactly.
(** such elements exist *)
Theorem C76_case_fold_copies_refuted : exists char group r s, newCaseProperties char group = Ok r /\ newDecompProperties char group = Ok s /\
  nkfcCasefold r = [0x41] /\ nfkcCaseFolded s = None.
Proof. exists (dict_of [("cp", "0041")]%string), []. eexists _, _. vm_compute. repeat split. Qed.
Print Assumptions C76_case_fold_copies_refuted.

(** ** C77: names with the code point in them are the algorithmic names of CharNames *)
Theorem C77_names : forall char group data A self choice, newCharacterData char group = Ok data -> a_type A = 0 -> choice = 0 \/ choice = 2 -> 0 <= self ->
  ~ In 35 (a_string A) -> attr char group "na" = a_string A ++ lit "#" ->
  attr char group "cp" = formatHex (if a_variant A =? 4 then 4 else if a_variant A =? 5 then 5 else 6) self ->
  algName A self choice = Ok (name data) /\ codePoint data = self.
Proof. exact names_agree. Qed.
Print Assumptions C77_names.
Example C77_case : match newCharacterData (dict_of [("cp", "4E2D"); ("na", "CJK UNIFIED IDEOGRAPH-#")]%string) latin with
  | Ok d => name d = lit "CJK UNIFIED IDEOGRAPH-4E2D" | Err _ => False end /\
  algName (mkAlg 0x4E00 0xA000 0 4 0 [] (lit "CJK UNIFIED IDEOGRAPH-") []) 0x4E2D 0 = Ok (lit "CJK UNIFIED IDEOGRAPH-4E2D").
Proof. vm_compute. repeat split. Qed.

(** ** C78: the index in tests/UnicodeCharacterData.py

    [entries]: the elements with an attribute "cp" of their own, each with its group.
    The last element for a code point is the one kept. *)
Theorem C78_index : forall groups ds, mapM (fun e => newCharacterData (fst e) (snd e)) (entries groups) = Ok ds -> Forall (fun a => is_cp (codePoint a)) ds ->
  exists d x, read groups ([], emptyIndex) = Ok (d, x) /\ (forall c, zd_find d c = find (fun a => codePoint a =? c) (rev ds)) /\
    (forall c, is_cp c -> forall key,
      let has f := exists a, zd_find d c = Some a /\ f a = key in
      (contains (snd (pl_get (scriptList x) key)) c = Ok true <-> has script) /\
      (contains (snd (pl_get (generalCategories x) key)) c = Ok true <-> has generalCategory) /\
      (contains (snd (pl_get (bidiClasses x) key)) c = Ok true <-> has (fun a => bidiClass (bidi a))) /\
      (contains (snd (pl_get (bidiPairedBracketTypes x) key)) c = Ok true <-> has (fun a => bidiPairedBracketType (bidi a))) /\
      (contains (snd (pl_get (numericTypes x) key)) c = Ok true <-> key <> lit "None" /\ has numericType) /\
      (contains (snd (pl_get (blockList x) key)) c = Ok true <-> has block) /\
      zd_find (decompositions x) c = match zd_find d c with Some a => decomposition (decomp a) | None => None end) /\
    read groups (d, x) = Ok (d, x).
Proof. exact read_ok. Qed.
Print Assumptions C78_index.
Theorem C78_failure : forall groups e, mapM (fun e => newCharacterData (fst e) (snd e)) (entries groups) = Err e -> read groups ([], emptyIndex) = Err e.
Proof. exact read_fails. Qed.
Print Assumptions C78_failure.
Theorem C78_members : forall A, built A -> exists es, codePointsInSet A = Ok es /\ Sorted.StronglySorted Z.lt es /\ forall c, In c es <-> is_cp c /\ contains A c = Ok true.
Proof. intros A B. rewrite codePointsInSet_iter. destruct (iter_ok A B) as (es & E & S & _ & H). exists es. auto. Qed.
Print Assumptions C78_members.
Definition sample_file : list (element * list element) :=
  [(latin, [sharp; dict_of [("cp", "0041"); ("na", "LATIN CAPITAL LETTER A")]%string; dict_of [("first-cp", "0100"); ("last-cp", "0200")]%string; dict_of [("cp", "0042"); ("na", "LATIN CAPITAL LETTER B")]%string]);
   (dict_of [("nt", "De"); ("nv", "1"); ("gc", "Nd")]%string ++ latin, [dict_of [("cp", "0031")]%string])].
Example C78_case : match read sample_file ([], emptyIndex) with
  | Ok (d, x) => map fst d = [0xDF; 0x41; 0x42; 0x31] /\ dict_find (generalCategories x) (lit "Lu") = Some [0x41; 0x43; 0x110000] /\
      dict_find (generalCategories x) (lit "Nd") = Some [0x31; 0x32; 0x110000] /\ map fst (numericTypes x) = [lit "De"] /\
      match dict_find (scriptList x) (lit "Latn") with Some s => codePointsInSet s = Ok [0x31; 0x41; 0x42; 0xDF] | None => False end
  | Err _ => False end.
Proof. vm_compute. repeat split. Qed.
