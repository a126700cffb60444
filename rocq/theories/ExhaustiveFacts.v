(** * The exhaustive test: what it compares *)
From Coq Require Import ZArith List Bool Lia ZifyBool String.
From Verif Require Import Py PyStr Dict CharProps CaseProps BidiProps CPTrie Normalizer2 Normalizer2File CharNames UCD UCDFacts UCDIndex UCDIndexFacts PyModule Data_Modules ModuleFacts
  Data_Names CharRuns CharShipped CaseShipped BidiShipped BidiFacts Prop_UCD Prop_Modules Prop_BidiProps Prop_CaseProps Prop_Normalizer2 Exhaustive.
Import ListNotations.
Local Notation yes := UCDFacts.yes.
Open Scope string_scope.
Open Scope list_scope.
Open Scope Z_scope.
Local Notation length := List.length.
Local Notation concat := List.concat.

(** ** C106

    [attr] and [yes] are the attributes of an element or else of its group (Prop_UCD.v). *)
(** [s] is the name of the number *)
Definition says (dictionary : string) (r : res Z) (s : str) : Prop := exists k, r = Ok k /\ vd_find (UD dictionary) (VInt k) = Some (VStr s).
Definition spaced (s : str) : str := map (fun c => if c =? 95 then 32 else c) s.
(** the bits of column 1 and of column 2 with the attributes *)
Definition column1 : list (Z * string) := [(0, "WSpace"); (1, "Dash"); (2, "Hyphen"); (3, "QMark"); (4, "Term"); (5, "Math"); (6, "Hex"); (7, "AHex"); (8, "Alpha"); (9, "Ideo");
  (10, "Dia"); (11, "Ext"); (12, "NChar"); (13, "Gr_Ext"); (14, "Gr_Link"); (15, "IDSB"); (16, "IDST"); (17, "Radical"); (18, "UIdeo"); (19, "DI"); (20, "Dep"); (21, "LOE");
  (22, "XIDS"); (23, "XIDC"); (24, "IDS"); (25, "IDC"); (26, "Gr_Base"); (27, "STerm"); (28, "VS"); (29, "Pat_Syn"); (30, "Pat_WS"); (31, "PCM")].
Definition column2 : list (Z * string) := [(28, "Emoji"); (29, "EPres"); (30, "EMod"); (31, "EBase"); (27, "EComp"); (26, "ExtPict")].

Section Statement.
  Variables (N : names) (L : layout) (nfcT nfkcT nfkc_cfT : norm2).
  (** the library and an element of the file tell the same.  [data] is what CharacterData makes
      of the element; C53 and C73 tell its mappings and decompositions. *)
  Definition tellsSame (cp : Z) (char group : element) (data : characterData) : Prop :=
    let a := attr char group in
    let y := yes char group in
    (says "scriptNames" (getScript icu cp) (a "sc") /\ says "generalCategoryNames" (getGeneralCategory icu cp) (a "gc") /\ says "bidiClassNames" (getCharDirection icu_bidi cp) (a "bc") /\
     says "joiningTypeNames" (getJoiningType icu_bidi cp) (a "jt") /\ says "joiningGroupNames" (getJoiningGroup icu_bidi cp) (spaced (a "jg")) /\
     says "blockNames" (getBlock icu cp) (spaced (a "blk")) /\ says "eastAsianWidthNames" (getEastAsianWidth icu cp) (a "ea") /\ says "lineBreakNames" (getLineBreak icu cp) (a "lb") /\
     says "sentenceBreakNames" (getSentenceBreak icu cp) (a "SB") /\ says "graphemeClusterBreakNames" (getGraphemeClusterBreak icu cp) (a "GCB") /\
     says "decompositionTypeNames" (getDecompType icu cp) (a "dt") /\ says "indicPositionalCategoryNames" (getInPC L cp) (a "InPC") /\
     says "indicSyllabicCategoryNames" (getInSC L cp) (a "InSC") /\ says "verticalOrientationNames" (getVO L cp) (a "vo")) /\
    (getMirror icu_bidi cp = Ok (bidiMirroredGlyph (bidi data)) /\ getPairedBracket icu_bidi cp = Ok (bidiPairedBracket (bidi data)) /\
     isJoinControl icu_bidi cp = Ok (y "Join_C") /\ isBidiControl icu_bidi cp = Ok (y "Bidi_C") /\ isMirrored icu_bidi cp = Ok (y "Bidi_M")) /\
    (toFullUpper icu_case cp = Ok (upperCase (case data)) /\ toFullLower icu_case cp = Ok (lowerCase (case data)) /\ toFullTitle icu_case cp = Ok (titleCase (case data))) /\
    ((exists r, getRawDecomposition nfcT cp = Ok r /\ (a "dt" = lit "can" -> r = decomposition (decomp data))) /\
     getRawDecomposition nfkcT cp = Ok (decomposition (decomp data)) /\
     exists r, getRawDecomposition nfkc_cfT cp = Ok r /\
       (a "dt" <> lit "none" -> nfkcCaseFolded (decomp data) = Some [cp] -> r = decomposition (decomp data)) /\
       (a "dt" <> lit "none" -> nfkcCaseFolded (decomp data) <> Some [cp] -> r = nfkcCaseFolded (decomp data))) /\
    getCharName N cp 0 = Ok (flat_map (fun c => if c =? 35 then a "cp" else [c]) (a "na")) /\
    (forall k tag, In (k, tag) column1 -> getBinaryProp icu cp k 1 = Ok (y tag)) /\ (forall k tag, In (k, tag) column2 -> getBinaryProp icu cp k 2 = Ok (y tag)).
End Statement.

(** *** one character *)
Lemma bind_iff {A B} (r : res A) (f : A -> res B) y : (let* x := r in f x) = Ok y <-> exists x, r = Ok x /\ f x = Ok y.
Proof. split; [destruct r as [x|e]; [intros H; exists x; auto|discriminate]|intros (x & -> & H); exact H]. Qed.
Lemma ok_same {A} (x y : A) : Ok x = Ok y -> x = y.
Proof. congruence. Qed.
Lemma doTest_iff b : doTest b = Ok tt <-> b = true.
Proof. destruct b; split; (reflexivity || discriminate). Qed.
Lemma nameIn_iff d r s : nameIn d r = Ok s <-> says d r s.
Proof.
  unfold nameIn, says. rewrite bind_iff. split; intros (k & -> & H); exists k; (split; [reflexivity|]).
  - unfold vd_get in H. change (typeDictionary d) with (UD d) in H. destruct (vd_find (UD d) (VInt k)) as [v|]; [cbn [bind] in H|discriminate]. destruct v; try discriminate. congruence.
  - unfold vd_get. change (typeDictionary d) with (UD d). rewrite H. reflexivity.
Qed.
Lemma optStr_iff a b : optStr_eqb a b = true <-> a = b.
Proof.
  destruct a as [x|], b as [y|]; cbn [optStr_eqb]; split; intros H; try discriminate; try reflexivity.
  - apply str_eqb_eq in H. congruence.
  - injection H as <-. apply str_eqb_refl.
Qed.
Lemma replace_spaced s : py_replace s 95 (lit " ") = spaced s.
Proof. unfold py_replace, spaced. induction s as [|c s IH]; [reflexivity|]. cbn [flat_map map]. rewrite IH. destruct (c =? 95); reflexivity. Qed.
Lemma binary_tests cp column fields tests : doBinaryTests cp column fields tests = Ok tt <->
  Forall (fun t => exists shift b, constantOf (fst t) = Ok shift /\ getBinaryProp icu cp shift column = Ok b /\ dict_find fields (lit (snd t)) = Some b) tests.
Proof.
  induction tests as [|[m f] r IH]; [split; [constructor|reflexivity]|]. cbn [doBinaryTests]. rewrite bind_iff. split.
  - intros (shift & C & H). apply bind_iff in H as (got & G & H). destruct (dict_find fields (lit f)) as [e|] eqn:E; [|discriminate]. apply bind_iff in H as ([] & T & H).
    apply doTest_iff, eqb_prop in T. subst e. constructor; [exists shift, got; auto|]. apply IH. exact H.
  - intros F. inversion F as [|? ? (shift & b & C & G & E) F']; subst. cbn [fst snd] in *. exists shift. split; [exact C|]. rewrite G. cbn [bind]. rewrite E.
    rewrite (proj2 (doTest_iff _)) by (apply eqb_true_iff; reflexivity). cbn [bind]. apply IH. exact F'.
Qed.
Lemma tests_match cp column fields (y : string -> bool) tests spec :
  Forall2 (fun t kt => constantOf (fst t) = Ok (fst kt) /\ dict_find fields (lit (snd t)) = Some (y (snd kt))) tests spec ->
  (doBinaryTests cp column fields tests = Ok tt <-> forall k tag, In (k, tag) spec -> getBinaryProp icu cp k column = Ok (y tag)).
Proof.
  intros F. rewrite binary_tests. induction F as [|t [k tag] tests spec (C & D) F IH]; [split; [intros _ k tag []|constructor]|]. cbn [fst snd] in *. split.
  - intros H. inversion H as [|? ? (shift & b & C' & G & D') H']; subst. intros k' tag' [E|I]; [|apply IH; assumption]. injection E as <- <-. assert (shift = k) by congruence. assert (b = y tag) by congruence. subst. exact G.
  - intros H. constructor; [|apply IH; intros k' tag' I; apply H; right; exact I]. exists k, (y tag). split; [exact C|]. split; [apply H; left; reflexivity|exact D].
Qed.
Lemma match1 (y : string -> bool) : Forall2 (fun t kt => constantOf (fst t) = Ok (fst kt) /\ dict_find (map (fun p => (lit (fst p), y (snd p))) binary_fields) (lit (snd t)) = Some (y (snd kt))) binaryTestList column1.
Proof. unfold binaryTestList, column1. repeat (apply Forall2_cons; [cbn [fst snd]; split; [vm_compute; reflexivity|reflexivity]|]). apply Forall2_nil. Qed.
Lemma match2 (y : string -> bool) data : emoji data = y "Emoji" -> emojiPresentation data = y "EPres" -> emojiModifier data = y "EMod" -> emojiModifierBase data = y "EBase" ->
  emojiComponent data = y "EComp" -> extendedPictograph data = y "ExtPict" ->
  Forall2 (fun t kt => constantOf (fst t) = Ok (fst kt) /\ dict_find (emojiOf data) (lit (snd t)) = Some (y (snd kt))) binaryTest2List column2.
Proof.
  intros E1 E2 E3 E4 E5 E6. unfold emojiOf. rewrite E1, E2, E3, E4, E5, E6. unfold binaryTest2List, column2. repeat (apply Forall2_cons; [cbn [fst snd]; split; [vm_compute; reflexivity|reflexivity]|]). apply Forall2_nil.
Qed.
(** the plain attributes of the record *)
Lemma record_fields char group data : newCharacterData char group = Ok data -> let a := attr char group in let y := yes char group in
  (script data = a "sc" /\ generalCategory data = a "gc" /\ bidiClass (bidi data) = a "bc" /\ joiningType data = a "jt" /\ joiningGroup data = spaced (a "jg") /\ block data = spaced (a "blk") /\
   eastAsianWidth data = a "ea" /\ lineBreak data = a "lb" /\ sentenceBreak data = a "SB" /\ graphemeClusterBreak data = a "GCB" /\ decompositionType (decomp data) = a "dt" /\
   positionalCategory (indic data) = a "InPC" /\ syllabicCategory (indic data) = a "InSC" /\ verticalOrientation data = a "vo") /\
  (isJoiningControl data = y "Join_C" /\ bidiControl (bidi data) = y "Bidi_C" /\ bidiMirrored (bidi data) = y "Bidi_M") /\
  name data = flat_map (fun c => if c =? 35 then a "cp" else [c]) (a "na") /\
  snd (binary data) = map (fun p => (lit (fst p), y (snd p))) binary_fields /\
  (emoji data = y "Emoji" /\ emojiPresentation data = y "EPres" /\ emojiModifier data = y "EMod" /\ emojiModifierBase data = y "EBase" /\ emojiComponent data = y "EComp" /\ extendedPictograph data = y "ExtPict").
Proof.
  intros H a y. unfold newCharacterData in H. cbv zeta in H.
  apply bind_iff in H as (self & _ & H). apply bind_iff in H as (ccc & _ & H). apply bind_iff in H as (b & HB & H). apply bind_iff in H as (v & _ & H). apply bind_iff in H as (d & HD & H).
  apply bind_iff in H as (c & _ & H). apply bind_iff in H as (i & HI & H). apply bind_iff in H as (bin & HN & H). apply ok_same in H; subst data. cbn [script generalCategory bidi joiningType joiningGroup block eastAsianWidth lineBreak
    sentenceBreak graphemeClusterBreak decomp indic verticalOrientation isJoiningControl name binary emoji emojiPresentation emojiModifier emojiModifierBase emojiComponent extendedPictograph].
  rewrite !replace_spaced. unfold cp. rewrite !getBooleanProperty_yes, !getCharProperty_attr.
  assert (B : bidiClass b = a "bc" /\ bidiControl b = y "Bidi_C" /\ bidiMirrored b = y "Bidi_M").
  { unfold newBidiProperties in HB. cbv zeta in HB. apply bind_iff in HB as (? & _ & HB). apply bind_iff in HB as (? & _ & HB). apply bind_iff in HB as (? & _ & HB). apply ok_same in HB; subst b. cbn [bidiClass bidiControl bidiMirrored].
    rewrite !getBooleanProperty_yes, getCharProperty_attr. auto. }
  assert (D : decompositionType d = a "dt").
  { unfold newDecompProperties in HD. cbv zeta in HD. apply bind_iff in HD as (? & _ & HD). apply bind_iff in HD as (? & _ & HD). apply bind_iff in HD as (? & _ & HD). apply bind_iff in HD as (? & _ & HD). apply ok_same in HD; subst d.
    cbn [decompositionType]. apply getCharProperty_attr. }
  assert (I : positionalCategory i = a "InPC" /\ syllabicCategory i = a "InSC").
  { unfold newIndicProperties in HI. apply bind_iff in HI as (? & _ & HI). apply ok_same in HI; subst i. cbn [positionalCategory syllabicCategory]. rewrite !getCharProperty_attr. auto. }
  assert (F : snd bin = map (fun p => (lit (fst p), y (snd p))) binary_fields).
  { unfold newBinaryProperties in HN. apply bind_iff in HN as (? & _ & HN). apply ok_same in HN; subst bin. cbn [snd].
    rewrite (fold_set fst (fun ft => getBooleanProperty char group (snd ft))); [|apply nodup_strs; vm_compute; reflexivity|intros ? _ J; exact J].
    unfold propsList. rewrite map_map. cbn [app]. apply map_ext. intros [f t]. cbn [fst snd]. rewrite getBooleanProperty_yes. reflexivity. }
  destruct B as (-> & -> & ->). rewrite D, F. destruct I as [-> ->]. fold a y. repeat match goal with |- _ /\ _ => split end; reflexivity.
Qed.

Lemma answers_iff N L nfcT nfkcT nfkc_cfT cp a : answersFor N L nfcT nfkcT nfkc_cfT cp = Ok a <->
  (says "scriptNames" (getScript icu cp) (a_sc a) /\ says "generalCategoryNames" (getGeneralCategory icu cp) (a_gc a) /\ says "bidiClassNames" (getCharDirection icu_bidi cp) (a_cd a) /\
   says "joiningTypeNames" (getJoiningType icu_bidi cp) (a_jt a) /\ says "joiningGroupNames" (getJoiningGroup icu_bidi cp) (a_jg a) /\ says "blockNames" (getBlock icu cp) (a_bc a) /\
   says "eastAsianWidthNames" (getEastAsianWidth icu cp) (a_aw a) /\ says "lineBreakNames" (getLineBreak icu cp) (a_lb a) /\ says "sentenceBreakNames" (getSentenceBreak icu cp) (a_sb a) /\
   says "graphemeClusterBreakNames" (getGraphemeClusterBreak icu cp) (a_gcb a)) /\
  (getMirror icu_bidi cp = Ok (a_bmg a) /\ getPairedBracket icu_bidi cp = Ok (a_bpb a) /\ isJoinControl icu_bidi cp = Ok (a_ijc a) /\ isBidiControl icu_bidi cp = Ok (a_ibc a) /\ isMirrored icu_bidi cp = Ok (a_im a)) /\
  (says "decompositionTypeNames" (getDecompType icu cp) (a_dt a) /\ toFullUpper icu_case cp = Ok (a_uc a) /\ toFullLower icu_case cp = Ok (a_lc a) /\ toFullTitle icu_case cp = Ok (a_tc a)) /\
  (says "indicPositionalCategoryNames" (getInPC L cp) (a_inpc a) /\ says "indicSyllabicCategoryNames" (getInSC L cp) (a_insc a) /\ says "verticalOrientationNames" (getVO L cp) (a_vo a)) /\
  (getRawDecomposition nfcT cp = Ok (a_nfc a) /\ getRawDecomposition nfkcT cp = Ok (a_nfkc a) /\ getRawDecomposition nfkc_cfT cp = Ok (a_nfkc_cf a) /\ getCharName N cp U_UNICODE_CHAR_NAME = Ok (a_name a)).
Proof.
  unfold answersFor. rewrite <- !nameIn_iff. split.
  - intros H. do 26 (let x := fresh "x" in let E := fresh "E" in apply bind_iff in H as (x & E & H)). injection H as <-.
    cbn [a_sc a_gc a_cd a_jt a_jg a_bc a_aw a_lb a_sb a_gcb a_bmg a_bpb a_ijc a_ibc a_im a_dt a_uc a_lc a_tc a_inpc a_insc a_vo a_nfc a_nfkc a_nfkc_cf a_name].
    repeat match goal with |- _ /\ _ => split end; assumption.
  - destruct a as [x1 x2 x3 x4 x5 x6 x7 x8 x9 x10 x11 x12 x13 x14 x15 x16 x17 x18 x19 x20 x21 x22 x23 x24 x25 x26]. cbn [a_sc a_gc a_cd a_jt a_jg a_bc a_aw a_lb a_sb a_gcb a_bmg a_bpb a_ijc a_ibc a_im a_dt a_uc a_lc a_tc a_inpc a_insc a_vo a_nfc a_nfkc a_nfkc_cf a_name].
    intros ((-> & -> & -> & -> & -> & -> & -> & -> & -> & ->) & (-> & -> & -> & -> & ->) & (-> & -> & -> & ->) & (-> & -> & ->) & (-> & -> & -> & ->)). reflexivity.
Qed.
Lemma says_inj d r s t : says d r s -> says d r t -> s = t.
Proof. intros (k & -> & H) (j & E & J). injection E as <-. congruence. Qed.
Lemma one_iff N L nfcT nfkcT nfkc_cfT cp char group data : newCharacterData char group = Ok data ->
  (testOne N L nfcT nfkcT nfkc_cfT cp data = Ok tt <-> tellsSame N L nfcT nfkcT nfkc_cfT cp char group data).
Proof.
  intros HR. destruct (record_fields char group data HR) as ((R1 & R2 & R3 & R4 & R5 & R6 & R7 & R8 & R9 & R10 & R11 & R12 & R13 & R14) & (Q1 & Q2 & Q3) & NM & BN & (M1 & M2 & M3 & M4 & M5 & M6)).
  pose proof (tests_match cp 2 (emojiOf data) (yes char group) _ _ (match2 (yes char group) data M1 M2 M3 M4 M5 M6)) as T2.
  pose proof (tests_match cp 1 _ (yes char group) _ _ (match1 (yes char group))) as T1. rewrite <- BN in T1.
  unfold testOne. rewrite bind_iff. split.
  - intros (a & A & H). apply bind_iff in H as ([] & T & H). apply bind_iff in H as ([] & B1 & B2). pose proof (proj1 T1 B1) as C1. pose proof (proj1 T2 B2) as C2. apply doTest_iff in T. cbn [forallb] in T. rewrite !andb_true_iff in T.
    rewrite !str_eqb_eq, !Z.eqb_eq, !eqb_true_iff in T. destruct T as (E1 & E2 & E3 & E4 & E5 & E6 & E7 & E8 & E9 & E10 & E11 & E12 & E13 & E14 & E15 & E16 & E17 & E18 & E19 & E20 & E21 & E22 & E23 & E24 & E25 & E26 & _).
    apply answers_iff in A as ((A1 & A2 & A3 & A4 & A5 & A6 & A7 & A8 & A9 & A10) & (A11 & A12 & A13 & A14 & A15) & (A16 & A17 & A18 & A19) & (A20 & A21 & A22) & (A23 & A24 & A25 & A26)).
    apply optStr_iff in E24.
    unfold tellsSame. cbv zeta. split; [|split; [|split; [|split; [|split; [|split; [exact C1|exact C2]]]]]].
    + repeat match goal with |- _ /\ _ => split end; congruence.
    + repeat match goal with |- _ /\ _ => split end; congruence.
    + repeat match goal with |- _ /\ _ => split end; congruence.
    + split; [|split; [congruence|]].
      * exists (a_nfc a). split; [exact A23|]. intros DT. rewrite R11, DT, str_eqb_refl in E23. apply optStr_iff. exact E23.
      * exists (a_nfkc_cf a). split; [exact A25|]. unfold expectedFold in E25. rewrite R11 in E25. split; intros DT FD.
        -- destruct (str_eqb (attr char group "dt") (lit "none")) eqn:Q; [apply str_eqb_eq in Q; contradiction|]. rewrite (proj2 (optStr_iff _ _) FD) in E25. apply optStr_iff. exact E25.
        -- destruct (str_eqb (attr char group "dt") (lit "none")) eqn:Q; [apply str_eqb_eq in Q; contradiction|]. destruct (optStr_eqb (nfkcCaseFolded (decomp data)) (Some [cp])) eqn:O; [apply optStr_iff in O; contradiction|]. apply optStr_iff. exact E25.
    + change 0 with U_UNICODE_CHAR_NAME. rewrite A26, E26, NM. reflexivity.
  - intros ((A1 & A2 & A3 & A4 & A5 & A6 & A7 & A8 & A9 & A10 & A16 & A20 & A21 & A22) & (A11 & A12 & A13 & A14 & A15) & (A17 & A18 & A19) & ((nr & A23 & C1) & A24 & (fr & A25 & C2 & C3)) & A26 & B1 & B2).
    exists (mkAnswers (script data) (generalCategory data) (bidiClass (bidi data)) (joiningType data) (joiningGroup data) (block data) (eastAsianWidth data) (lineBreak data) (sentenceBreak data) (graphemeClusterBreak data)
      (bidiMirroredGlyph (bidi data)) (bidiPairedBracket (bidi data)) (isJoiningControl data) (bidiControl (bidi data)) (bidiMirrored (bidi data)) (decompositionType (decomp data)) (upperCase (case data)) (lowerCase (case data)) (titleCase (case data))
      (positionalCategory (indic data)) (syllabicCategory (indic data)) (verticalOrientation data) nr (decomposition (decomp data)) fr (name data)).
    split.
    + apply answers_iff. cbn [a_sc a_gc a_cd a_jt a_jg a_bc a_aw a_lb a_sb a_gcb a_bmg a_bpb a_ijc a_ibc a_im a_dt a_uc a_lc a_tc a_inpc a_insc a_vo a_nfc a_nfkc a_nfkc_cf a_name].
      rewrite R1, R2, R3, R4, R5, R6, R7, R8, R9, R10, R11, R12, R13, R14, Q1, Q2, Q3, NM. repeat match goal with |- _ /\ _ => split end; assumption.
    + cbn [a_sc a_gc a_cd a_jt a_jg a_bc a_aw a_lb a_sb a_gcb a_bmg a_bpb a_ijc a_ibc a_im a_dt a_uc a_lc a_tc a_inpc a_insc a_vo a_nfc a_nfkc a_nfkc_cf a_name].
      apply bind_iff. exists tt. split; [|apply bind_iff; exists tt; split; [exact (proj2 T1 B1)|exact (proj2 T2 B2)]].
      apply doTest_iff. cbn [forallb]. rewrite !str_eqb_refl, !Z.eqb_refl, !eqb_reflx. cbn [andb]. rewrite (proj2 (optStr_iff (decomposition (decomp data)) _) eq_refl). cbn [andb]. rewrite !andb_true_iff. split; [|split; [|reflexivity]].
      * destruct (str_eqb (decompositionType (decomp data)) (lit "can")) eqn:Q; [|reflexivity]. apply str_eqb_eq in Q. apply optStr_iff, C1. rewrite <- R11. exact Q.
      * unfold expectedFold. destruct (str_eqb (decompositionType (decomp data)) (lit "none")) eqn:Q; [reflexivity|]. assert (DT : attr char group "dt" <> lit "none") by (intros E; rewrite R11, E, str_eqb_refl in Q; discriminate).
        destruct (optStr_eqb (nfkcCaseFolded (decomp data)) (Some [cp])) eqn:O.
        -- apply optStr_iff. apply C2; [exact DT|]. apply optStr_iff. exact O.
        -- apply optStr_iff. apply C3; [exact DT|]. intros E. apply optStr_iff in E. congruence.
Qed.

(** *** loading *)
Definition newFor (e : element * element) : res characterData := newCharacterData (fst e) (snd e).
Fixpoint loadEntries (d : characters) (es : list (element * element)) : res unit * characters :=
  match es with [] => (Ok tt, d) | e :: r => match newFor e with Ok a => loadEntries (store d a) r | Err x => (Err x, d) end end.
Lemma loadEntries_app a : forall d b, loadEntries d (a ++ b) = match loadEntries d a with (Ok _, d') => loadEntries d' b | (Err x, d') => (Err x, d') end.
Proof. induction a as [|e a IH]; intros d b; [reflexivity|]. cbn [app loadEntries]. destruct (newFor e); [apply IH|reflexivity]. Qed.
Lemma loadGroups_entries groups : forall d, loadGroups d groups = loadEntries d (entries groups).
Proof.
  induction groups as [|[g cs] r IH]; intros d; [reflexivity|]. cbn [loadGroups].
  assert (entries ((g, cs) :: r) = map (fun char => (char, g)) (filter (fun char => match dict_find char (lit "cp") with Some _ => true | None => false end) cs) ++ entries r) as -> by reflexivity.
  rewrite loadEntries_app.
  assert (forall d, loadGroup d g cs = loadEntries d (map (fun char => (char, g)) (filter (fun char => match dict_find char (lit "cp") with Some _ => true | None => false end) cs))) as ->.
  { clear. induction cs as [|c cs IH]; intros d; [reflexivity|]. cbn [loadGroup filter]. destruct (dict_find c (lit "cp")); [|apply IH]. cbn [map loadEntries].
    unfold newFor at 1. cbn [fst snd]. destruct (newCharacterData c g); [apply IH|reflexivity]. }
  destruct (loadEntries d _) as [[x|x] d']; [apply IH|reflexivity].
Qed.
Lemma test_entries N L n1 n2 n3 groups : test_exhaustive N L n1 n2 n3 groups [] =
  match loadEntries [] (entries groups) with (Err x, d) => (Err x, d) | (Ok _, d) => (testAll N L n1 n2 n3 d, d) end.
Proof. unfold test_exhaustive, loadCharacterData. cbn. rewrite loadGroups_entries. reflexivity. Qed.
Lemma loadEntries_ok es : forall d, (forall ds, Forall2 (fun e a => newFor e = Ok a) es ds -> loadEntries d es = (Ok tt, fold_left store ds d)).
Proof.
  induction es as [|e es IH]; intros d ds F; inversion F as [|? a ? ds' H F']; subst; [reflexivity|]. cbn [loadEntries fold_left]. rewrite H. apply IH. exact F'.
Qed.
Lemma all_new es : (forall e, In e es -> exists a, newFor e = Ok a) -> exists ds, Forall2 (fun e a => newFor e = Ok a) es ds.
Proof.
  induction es as [|e es IH]; intros H; [exists []; constructor|]. destruct (H e) as [a A]; [left; reflexivity|]. destruct IH as [ds F]; [intros e' I; apply H; right; exact I|]. exists (a :: ds). constructor; assumption.
Qed.
Lemma load_cases es : (forall e, In e es -> exists a, newFor e = Ok a) \/
  exists before e after x, es = before ++ e :: after /\ newFor e = Err x /\ (forall e, In e before -> exists a, newFor e = Ok a).
Proof.
  induction es as [|e es IH]; [left; intros ? []|]. destruct (newFor e) as [a|x] eqn:E.
  - destruct IH as [H|(b & e' & r & x & -> & X & H)].
    + left. intros e' [<-|I]; [exists a; exact E|apply H; exact I].
    + right. exists (e :: b), e', r, x. split; [reflexivity|]. split; [exact X|]. intros e'' [<-|I]; [exists a; exact E|apply H; exact I].
  - right. exists [], e, es, x. split; [reflexivity|]. split; [exact E|intros ? []].
Qed.
Lemma load_fails before e after x ds : newFor e = Err x -> Forall2 (fun e a => newFor e = Ok a) before ds -> loadEntries [] (before ++ e :: after) = (Err x, fold_left store ds []).
Proof. intros X F. rewrite loadEntries_app, (loadEntries_ok _ _ _ F). cbn [loadEntries]. rewrite X. reflexivity. Qed.
Lemma testAll_iff N L n1 n2 n3 d : testAll N L n1 n2 n3 d = Ok tt <-> forall c a, In (c, a) d -> testOne N L n1 n2 n3 c a = Ok tt.
Proof.
  induction d as [|[c a] d IH]; [split; [intros _ ? ? []|reflexivity]|]. cbn [testAll]. rewrite bind_iff. split.
  - intros ([] & T & H) c' a' [E|I]; [injection E as <- <-; exact T|]. apply (proj1 IH H). exact I.
  - intros H. exists tt. split; [apply H; left; reflexivity|]. apply IH. intros c' a' I. apply H. right. exact I.
Qed.
Lemma find_last (ds : list characterData) c a : find (fun x => codePoint x =? c) (rev ds) = Some a <->
  exists b r, ds = b ++ a :: r /\ codePoint a = c /\ forall x, In x r -> codePoint x <> c.
Proof.
  split.
  - intros H. assert (R : exists l m, rev ds = l ++ a :: m /\ codePoint a = c /\ forall x, In x l -> codePoint x <> c).
    { revert H. induction (rev ds) as [|y l IH]; [discriminate|]. cbn [find]. destruct (codePoint y =? c) eqn:E.
      - intros H. injection H as <-. exists [], l. split; [reflexivity|]. split; [lia|intros ? []].
      - intros H. destruct (IH H) as (l' & m & -> & C & F). exists (y :: l'), m. split; [reflexivity|]. split; [exact C|]. intros x [<-|I]; [lia|apply F; exact I]. }
    destruct R as (l & m & R & C & F). exists (rev m), (rev l). split; [rewrite <- (rev_involutive ds), R, rev_app_distr; cbn [rev]; rewrite <- app_assoc; reflexivity|]. split; [exact C|].
    intros x I. apply F. apply in_rev. exact I.
  - intros (b & r & -> & C & F). rewrite rev_app_distr. cbn [rev]. rewrite <- app_assoc. cbn [app].
    assert (G : forall l m, (forall x, In x l -> codePoint x <> c) -> find (fun x => codePoint x =? c) (l ++ a :: m) = Some a).
    { induction l as [|y l IH]; intros m H; cbn [app find]; [replace (codePoint a =? c) with true by lia; reflexivity|]. replace (codePoint y =? c) with false by (specialize (H y (or_introl eq_refl)); lia). apply IH. intros x I. apply H. right. exact I. }
    apply G. intros x I. apply F. apply in_rev. exact I.
Qed.
Lemma stored ds c a : In (c, a) (fold_left store ds []) <-> exists b r, ds = b ++ a :: r /\ codePoint a = c /\ forall x, In x r -> codePoint x <> c.
Proof.
  destruct (store_facts ds []) as (N & _ & F); [constructor|constructor|]. rewrite <- zd_find_in by exact N. rewrite F, <- find_last. cbn [zd_find]. destruct (find _ (rev ds)); reflexivity.
Qed.
Lemma Forall2_in {A B} (R : A -> B -> Prop) l m y : Forall2 R l m -> In y m -> exists x, In x l /\ R x y.
Proof. induction 1 as [|x z l m H F IH]; [intros []|]. intros [<-|I]; [exists x; split; [left; reflexivity|exact H]|]. destruct (IH I) as (x' & I' & H'). exists x'. split; [right; exact I'|exact H']. Qed.
Lemma Forall2_in' {A B} (R : A -> B -> Prop) l m x : Forall2 R l m -> In x l -> exists y, In y m /\ R x y.
Proof. induction 1 as [|z y l m H F IH]; [intros []|]. intros [<-|I]; [exists y; split; [left; reflexivity|exact H]|]. destruct (IH I) as (x' & I' & H'). exists x'. split; [right; exact I'|exact H']. Qed.

(** *** what the test does not look at *)
Definition codes (cp value : str) : res str := if (zlen value =? 0) || str_eqb value (lit "#") then let* n := py_int cp 16 in format_c n else charsOf value.
Lemma record_decoded char group data : newCharacterData char group = Ok data -> let a := attr char group in exists self, py_int (a "cp") 16 = Ok self /\ codePoint data = self /\
  (if str_eqb (a "bmg") [] then Ok self else py_int (a "bmg") 16) = Ok (bidiMirroredGlyph (bidi data)) /\ (if str_eqb (a "bpb") (lit "#") then Ok self else py_int (a "bpb") 16) = Ok (bidiPairedBracket (bidi data)) /\
  codes (a "cp") (a "uc") = Ok (upperCase (case data)) /\ codes (a "cp") (a "lc") = Ok (lowerCase (case data)) /\ codes (a "cp") (a "tc") = Ok (titleCase (case data)) /\
  dmToString self (a "dm") false = Ok (decomposition (decomp data)) /\ dmToString self (a "NFKC_CF") true = Ok (nfkcCaseFolded (decomp data)).
Proof.
  intros H a. unfold newCharacterData, newBidiProperties, newCaseProperties, newDecompProperties, getCodePointsProperty, cp in H. cbv zeta in H. rewrite !getCharProperty_attr in H. fold a in H.
  apply bind_iff in H as (self & S1 & H). apply bind_iff in H as (ccc & _ & H). apply bind_iff in H as (b & HB & H). apply bind_iff in H as (v & _ & H). apply bind_iff in H as (d & HD & H).
  apply bind_iff in H as (c & HC & H). apply bind_iff in H as (i & _ & H). apply bind_iff in H as (bin & _ & H). apply ok_same in H; subst data. cbn [codePoint bidi case decomp]. exists self. rewrite S1 in HB, HD, HC. cbn [bind] in HB, HD, HC.
  apply bind_iff in HB as (m & HB1 & HB). apply bind_iff in HB as (k & HB2 & HB). apply ok_same in HB; subst b. cbn [bidiMirroredGlyph bidiPairedBracket].
  apply bind_iff in HD as (x1 & HD1 & HD). apply bind_iff in HD as (x2 & _ & HD). apply bind_iff in HD as (x3 & HD3 & HD). apply ok_same in HD; subst d. cbn [decomposition nfkcCaseFolded].
  apply bind_iff in HC as (? & _ & HC). apply bind_iff in HC as (? & _ & HC). apply bind_iff in HC as (y1 & HC1 & HC). apply bind_iff in HC as (y2 & HC2 & HC). apply bind_iff in HC as (y3 & HC3 & HC).
  apply bind_iff in HC as (? & _ & HC). apply bind_iff in HC as (? & _ & HC). apply bind_iff in HC as (? & _ & HC). apply ok_same in HC; subst c. cbn [upperCase lowerCase titleCase].
  unfold codes. rewrite S1. cbn [bind]. repeat match goal with |- _ /\ _ => split end; (reflexivity || assumption).
Qed.
(** the attributes that are compared *)
Definition compared : list string := ["cp"; "sc"; "gc"; "bc"; "jt"; "jg"; "blk"; "ea"; "lb"; "SB"; "GCB"; "dt"; "InPC"; "InSC"; "vo"; "bmg"; "bpb"; "Join_C"; "Bidi_C"; "Bidi_M"; "uc"; "lc"; "tc"; "dm"; "NFKC_CF"; "na"] ++
  map snd column1 ++ map snd column2.
Lemma doBinary_same cp column f g tests : (forall t, In t tests -> dict_find f (lit (snd t)) = dict_find g (lit (snd t))) -> doBinaryTests cp column f tests = doBinaryTests cp column g tests.
Proof.
  induction tests as [|[m t] r IH]; intros H; [reflexivity|]. cbn [doBinaryTests]. destruct (constantOf m); [cbn [bind]|reflexivity]. destruct (getBinaryProp icu cp a column); [cbn [bind]|reflexivity].
  pose proof (H (m, t) (or_introl eq_refl)) as E. cbn [snd] in E. rewrite E. destruct (dict_find g (lit t)); [|reflexivity]. destruct (doTest _); [cbn [bind]|reflexivity]. apply IH. intros t' I. apply H. right. exact I.
Qed.
Lemma testOne_same N L n1 n2 n3 cp a b : (script a = script b /\ generalCategory a = generalCategory b /\ bidiClass (bidi a) = bidiClass (bidi b) /\ joiningType a = joiningType b /\ joiningGroup a = joiningGroup b /\ block a = block b /\
   eastAsianWidth a = eastAsianWidth b /\ lineBreak a = lineBreak b /\ sentenceBreak a = sentenceBreak b /\ graphemeClusterBreak a = graphemeClusterBreak b /\ decompositionType (decomp a) = decompositionType (decomp b) /\
   positionalCategory (indic a) = positionalCategory (indic b) /\ syllabicCategory (indic a) = syllabicCategory (indic b) /\ verticalOrientation a = verticalOrientation b) ->
  (isJoiningControl a = isJoiningControl b /\ bidiControl (bidi a) = bidiControl (bidi b) /\ bidiMirrored (bidi a) = bidiMirrored (bidi b)) -> name a = name b ->
  (bidiMirroredGlyph (bidi a) = bidiMirroredGlyph (bidi b) /\ bidiPairedBracket (bidi a) = bidiPairedBracket (bidi b) /\ upperCase (case a) = upperCase (case b) /\ lowerCase (case a) = lowerCase (case b) /\ titleCase (case a) = titleCase (case b) /\
   decomposition (decomp a) = decomposition (decomp b) /\ nfkcCaseFolded (decomp a) = nfkcCaseFolded (decomp b)) ->
  doBinaryTests cp 1 (snd (binary a)) binaryTestList = doBinaryTests cp 1 (snd (binary b)) binaryTestList -> emojiOf a = emojiOf b ->
  testOne N L n1 n2 n3 cp a = testOne N L n1 n2 n3 cp b.
Proof.
  intros (E1 & E2 & E3 & E4 & E5 & E6 & E7 & E8 & E9 & E10 & E11 & E12 & E13 & E14) (Q1 & Q2 & Q3) NM (D1 & D2 & D3 & D4 & D5 & D6 & D7) B1 B2. unfold testOne, expectedFold.
  rewrite E1, E2, E3, E4, E5, E6, E7, E8, E9, E10, E11, E12, E13, E14, Q1, Q2, Q3, NM, D1, D2, D3, D4, D5, D6, D7, B1, B2. reflexivity.
Qed.
Lemma tags1 t : In t binaryTestList -> exists tag, In tag (map snd column1) /\ forall y : string -> bool, dict_find (map (fun p => (lit (fst p), y (snd p))) binary_fields) (lit (snd t)) = Some (y tag).
Proof. unfold binaryTestList. intros I. repeat (destruct I as [<-|I]; [eexists; split; [|intros y; cbn [snd]; reflexivity]; vm_compute; tauto|]). destruct I. Qed.
Lemma compared_same N L n1 n2 n3 cp c1 g1 c2 g2 a b : (forall k, In k compared -> attr c1 g1 k = attr c2 g2 k) -> newCharacterData c1 g1 = Ok a -> newCharacterData c2 g2 = Ok b ->
  codePoint a = codePoint b /\ testOne N L n1 n2 n3 cp a = testOne N L n1 n2 n3 cp b.
Proof.
  intros H A B. destruct (record_fields _ _ _ A) as ((R1 & R2 & R3 & R4 & R5 & R6 & R7 & R8 & R9 & R10 & R11 & R12 & R13 & R14) & (Q1 & Q2 & Q3) & NM & BN & (M1 & M2 & M3 & M4 & M5 & M6)).
  destruct (record_fields _ _ _ B) as ((R1' & R2' & R3' & R4' & R5' & R6' & R7' & R8' & R9' & R10' & R11' & R12' & R13' & R14') & (Q1' & Q2' & Q3') & NM' & BN' & (M1' & M2' & M3' & M4' & M5' & M6')).
  destruct (record_decoded _ _ _ A) as (s & S1 & S2 & S3 & S4 & S5 & S6 & S7 & S8 & S9). destruct (record_decoded _ _ _ B) as (s' & S1' & S2' & S3' & S4' & S5' & S6' & S7' & S8' & S9').
  assert (HA : forall k, existsb (String.eqb k) compared = true -> attr c1 g1 k = attr c2 g2 k).
  { intros k E. apply H. apply existsb_exists in E as (k' & I & E). apply String.eqb_eq in E. subst k'. exact I. }
  assert (HY : forall k, existsb (String.eqb k) compared = true -> yes c1 g1 k = yes c2 g2 k) by (intros k E; unfold yes; rewrite (HA k E); reflexivity).
  rewrite (HA "cp") in S1, S5, S6, S7 by reflexivity. rewrite (HA "uc") in S5 by reflexivity. rewrite (HA "lc") in S6 by reflexivity. rewrite (HA "tc") in S7 by reflexivity.
  rewrite (HA "bmg") in S3 by reflexivity. rewrite (HA "bpb") in S4 by reflexivity. rewrite (HA "dm") in S8 by reflexivity. rewrite (HA "NFKC_CF") in S9 by reflexivity.
  assert (EQ : s = s') by congruence. rewrite EQ in S2, S3, S4, S8, S9. split; [congruence|]. apply testOne_same.
  - rewrite R1, R2, R3, R4, R5, R6, R7, R8, R9, R10, R11, R12, R13, R14, R1', R2', R3', R4', R5', R6', R7', R8', R9', R10', R11', R12', R13', R14'. rewrite !HA by reflexivity. repeat match goal with |- _ /\ _ => split end; reflexivity.
  - rewrite Q1, Q2, Q3, Q1', Q2', Q3'. rewrite !HY by reflexivity. auto.
  - rewrite NM, NM', !HA by reflexivity. reflexivity.
  - repeat match goal with |- _ /\ _ => split end; apply ok_same; (etransitivity; [symmetry|]; eassumption).
  - apply doBinary_same. rewrite BN, BN'. intros t I. destruct (tags1 t I) as (tag & I2 & E2). rewrite !E2. f_equal. apply HY. apply existsb_exists. exists tag. split; [|apply String.eqb_refl].
    unfold compared. apply in_or_app. right. apply in_or_app. left. exact I2.
  - unfold emojiOf. rewrite M1, M2, M3, M4, M5, M6, M1', M2', M3', M4', M5', M6', !HY by reflexivity. reflexivity.
Qed.
