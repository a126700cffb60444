(** * Properties C79 - C81: the modules of constants and names. *)
From Coq Require Import ZArith List Bool Lia String.
From Verif Require Import Py Dict CharProps CaseProps BidiProps CharNames CharShipped BidiShipped PyModule ModuleFacts Data_Modules Data_Names.
Import ListNotations.
Open Scope Z_scope.
Open Scope string_scope.

(** ** C79: the hand-written constants are those of the ICU headers

    [known env hdr rename exc]: importing both modules, every constant of [env] but those
    named in [exc] is in the header module, under the name [rename], with the same value. *)
Definition known (env hdr : dict pval) (rename : str -> str) (exc : list str) : Prop :=
  forall n v, dict_find env n = Some v -> is_dict v = false -> ~ In n exc -> dict_find hdr (rename n) = Some v.
Definition same_name (n : str) : str := n.
Definition with_u (n : str) : str := (lit "U_" ++ n)%list.
(** GC_LU_MASK is U_GC_LU_MASK, GC_UPPERCASE_LETTER is U_UPPERCASE_LETTER *)
Definition gc_name (n : str) : str :=
  if str_eqb (skipn (List.length n - 5) n) (lit "_MASK") then with_u n else with_u (skipn 3 n).

(** what is not there: the misspelt count of categories, the count of scripts, two widths
    of bit fields, and aliases made into tuples by a trailing comma *)
Definition block_tuples := [lit "UBLOCK_PRIVATE_USE"; lit "UBLOCK_CYRILLIC_SUPPLEMENTARY"].
Definition script_tuples := [lit "USCRIPT_UCAS"; lit "USCRIPT_MANDAEAN"; lit "USCRIPT_MEROITIC"; lit "USCRIPT_PHONETIC_POLLARD"; lit "USCRIPT_SINDHI"].

(** Missing from the full statement: the aliases of [block_tuples] and [script_tuples]. *)
Theorem C79_constants_partial :
  known Blocks_env uchar_h_env same_name block_tuples /\ known Boundaries_env uchar_h_env with_u [] /\
  known CharDirection_env uchar_h_env same_name [] /\ known DecompositionType_env uchar_h_env same_name [] /\
  known EastAsianWidth_env uchar_h_env same_name [] /\ known GeneralCategories_env uchar_h_env gc_name [lit "GC_CATEFORY_COUNT"] /\
  known JoiningTypesAndGroups_env uchar_h_env same_name [] /\ known LayoutTypes_env uchar_h_env same_name [] /\
  known Scripts_env uscript_h_env same_name (lit "USCRIPT_CODE_LIMIT" :: script_tuples) /\ known CaseProps_env ucase_h_env same_name [lit "UCASE_PROPS_BITS"; lit "UCASE_DELTA_BITS"].
Proof. repeat match goal with |- _ /\ _ => split end; refine (consts_in_ok _ _ _ _ _); vm_compute; reflexivity. Qed.
Print Assumptions C79_constants_partial.
Theorem C79_constants_refuted : exists n v w, dict_find Scripts_env n = Some v /\ dict_find uscript_h_env n = Some w /\ v <> w /\
  (forall c k, getScript icu c = Ok k -> VInt k <> v) /\ getScript icu 0x1401 = Ok 40 /\ w = VInt 40.
Proof.
  exists (lit "USCRIPT_UCAS"), (VTuple [VInt 40]), (VInt 40). split; [vm_compute; reflexivity|]. split; [vm_compute; reflexivity|].
  split; [discriminate|]. split; [discriminate|]. split; [vm_compute; reflexivity|reflexivity].
Qed.
Print Assumptions C79_constants_refuted.
(** All seven: the value of the header in a tuple; with UBIDI_MAX_VALUES_INDEX of
    BidiProps.py they are all the tuples of the modules. *)
Theorem C79_tuples : forall n, In n block_tuples \/ In n script_tuples ->
  exists k, dict_find (Blocks_env ++ Scripts_env)%list n = Some (VTuple [VInt k]) /\ dict_find (uchar_h_env ++ uscript_h_env)%list n = Some (VInt k).
Proof.
  intros n [H|H]; repeat (destruct H as [<-|H]; [eexists; split; vm_compute; reflexivity|]); destruct H.
Qed.
Print Assumptions C79_tuples.
Definition all_modules : dict pval := (uchar_h_env ++ uscript_h_env ++ ucase_h_env ++ uprops_h_env ++ Blocks_env ++ Boundaries_env ++ CharDirection_env ++
  Characters_env ++ DecompositionType_env ++ EastAsianWidth_env ++ GeneralCategories_env ++ JoiningTypesAndGroups_env ++ LayoutTypes_env ++
  Scripts_env ++ UCDTypeDictionaries_env ++ CaseProps_env ++ BidiProps_env)%list.
Theorem C79_all_tuples : forall n l, In (n, VTuple l) all_modules <->
  In (n, l) [(lit "UBLOCK_PRIVATE_USE", [VInt 78]); (lit "UBLOCK_CYRILLIC_SUPPLEMENTARY", [VInt 97]); (lit "USCRIPT_UCAS", [VInt 40]);
    (lit "USCRIPT_MANDAEAN", [VInt 84]); (lit "USCRIPT_MEROITIC", [VInt 86]); (lit "USCRIPT_PHONETIC_POLLARD", [VInt 92]);
    (lit "USCRIPT_SINDHI", [VInt 145]); (lit "UBIDI_MAX_VALUES_INDEX", [VInt 15])].
Proof.
  assert (E : flat_map (fun '(n, v) => match v with VTuple l => [(n, l)] | _ => [] end) all_modules =
    [(lit "UBLOCK_PRIVATE_USE", [VInt 78]); (lit "UBLOCK_CYRILLIC_SUPPLEMENTARY", [VInt 97]); (lit "USCRIPT_UCAS", [VInt 40]);
    (lit "USCRIPT_MANDAEAN", [VInt 84]); (lit "USCRIPT_MEROITIC", [VInt 86]); (lit "USCRIPT_PHONETIC_POLLARD", [VInt 92]);
    (lit "USCRIPT_SINDHI", [VInt 145]); (lit "UBIDI_MAX_VALUES_INDEX", [VInt 15])]) by (vm_compute; reflexivity).
  intros n l. rewrite <- E. rewrite in_flat_map. split.
  - intros H. exists (n, VTuple l). split; [exact H|left; reflexivity].
  - intros [[m v] [H I]]. destruct v; try (destruct I; fail). destruct I as [[= <- <-]|[]]. exact H.
Qed.
Print Assumptions C79_all_tuples.
Example C79_case : dict_find Blocks_env (lit "UBLOCK_GREEK") = Some (VInt 8) /\ dict_find uchar_h_env (lit "UBLOCK_GREEK") = Some (VInt 8) /\
  dict_find GeneralCategories_env (lit "GC_P_MASK") = Some (VInt 821559296) /\ dict_find uchar_h_env (lit "U_GC_P_MASK") = Some (VInt 821559296).
Proof. vm_compute. repeat split. Qed.

(** ** C80: the two copies of each dictionary *)
Definition UD (name : string) := mdict UCDTypeDictionaries_env (lit name).
Definition copies (env : dict pval) (name name' : string) (exc : list pval) : Prop :=
  mdict env (lit name) <> [] /\ forall k, ~ In k exc -> vd_find (mdict env (lit name)) k = vd_find (UD name') k.
(** Missing from the full statement: five blocks, one word break value, and the tuple keys
    of scriptCodes. *)
Theorem C80_copies_partial :
  copies CharDirection_env "bidiClassNames" "bidiClassNames" [] /\
  copies DecompositionType_env "decompositionTypeNames" "decompositionTypeNames" [] /\
  copies EastAsianWidth_env "eastAsianWidthNames" "eastAsianWidthNames" [] /\
  copies GeneralCategories_env "generalCategories" "generalCategoryNames" [] /\
  copies Boundaries_env "graphemeClusterBreakNames" "graphemeClusterBreakNames" [] /\
  copies Boundaries_env "sentenceBreakNames" "sentenceBreakNames" [] /\
  copies Boundaries_env "lineBreakNames" "lineBreakNames" [] /\
  copies JoiningTypesAndGroups_env "joiningTypes" "joiningTypeNames" [] /\
  copies JoiningTypesAndGroups_env "joiningGroups" "joiningGroupNames" [] /\
  copies LayoutTypes_env "inpcNames" "indicPositionalCategoryNames" [] /\
  copies LayoutTypes_env "inscNames" "indicSyllabicCategoryNames" [] /\
  copies LayoutTypes_env "voNames" "verticalOrientationNames" [] /\
  copies Boundaries_env "wordBreakNames" "wordBreakNames" [VInt 22] /\
  copies Blocks_env "blockNames" "blockNames" [VInt 0; VInt 76; VInt 78; VInt 109; VInt 110] /\
  copies Scripts_env "scriptCodes" "scriptNames" [VTuple [VInt 40]; VTuple [VInt 84]; VTuple [VInt 86]; VTuple [VInt 92]; VTuple [VInt 145]].
Proof.
  repeat match goal with |- _ /\ _ => split end; (split; [vm_compute; discriminate|refine (same_but_ok _ _ _ _); vm_compute; reflexivity]).
Qed.
Print Assumptions C80_copies_partial.
(** Each exception is one: U+10FFFE is in a block with two names *)
Theorem C80_copies_refuted : exists c k s t, 0 <= c <= 0x10FFFF /\ getBlock icu c = Ok k /\
  vd_get (mdict Blocks_env (lit "blockNames")) (VInt k) = Ok (VStr s) /\ vd_get (UD "blockNames") (VInt k) = Ok (VStr t) /\ s <> t.
Proof.
  exists 0x10FFFE, 110, (lit "Supary Private Use Area B"), (lit "Sup PUA B").
  split; [split; discriminate|]. split; [vm_compute; reflexivity|]. split; [vm_compute; reflexivity|].
  split; [vm_compute; reflexivity|]. discriminate.
Qed.
Print Assumptions C80_copies_refuted.
Theorem C80_differences :
  (forall k, In k [0; 76; 78; 109; 110] -> exists s t, vd_find (mdict Blocks_env (lit "blockNames")) (VInt k) = Some s /\
    vd_find (UD "blockNames") (VInt k) = Some t /\ s <> t) /\
  vd_find (mdict Boundaries_env (lit "wordBreakNames")) (VInt 22) = Some (VStr (lit "WSEGSPACE")) /\
  vd_find (UD "wordBreakNames") (VInt 22) = Some (VStr (lit "WSegSpace")).
Proof.
  split; [|vm_compute; split; reflexivity]. intros k H.
  repeat (destruct H as [<-|H]; [eexists; eexists; split; [vm_compute; reflexivity|]; split; [vm_compute; reflexivity|discriminate]|]). destruct H.
Qed.
Print Assumptions C80_differences.
Example C80_case : vd_find (mdict Blocks_env (lit "blockNames")) (VInt 8) = Some (VStr (lit "Greek")) /\ vd_find (UD "blockNames") (VInt 8) = Some (VStr (lit "Greek")).
Proof. vm_compute. repeat split. Qed.

(** ** C81: names name one value each

    The keys of the dictionary are exactly the integers below [n], its values are
    strings, and no string occurs twice. *)
Definition names_of (d : list (pval * pval)) (n : Z) : Prop :=
  (forall k, (exists v, vd_find d k = Some v) <-> exists i, k = VInt i /\ 0 <= i < n) /\
  (forall k v, vd_find d k = Some v -> exists s, v = VStr s) /\
  (forall k j v, vd_find d k = Some v -> vd_find d j = Some v -> k = j).
Theorem C81_bijective :
  names_of (UD "bidiClassNames") 23 /\ names_of (UD "blockNames") 309 /\ names_of (UD "decompositionTypeNames") 18 /\
  names_of (UD "eastAsianWidthNames") 6 /\ names_of (UD "generalCategoryNames") 30 /\ names_of (UD "graphemeClusterBreakNames") 18 /\
  names_of (UD "hangulSyllableTypeNames") 6 /\ names_of (UD "indicPositionalCategoryNames") 16 /\
  names_of (UD "indicSyllabicCategoryNames") 36 /\ names_of (UD "joiningGroupNames") 102 /\ names_of (UD "joiningTypeNames") 6 /\
  names_of (UD "lineBreakNames") 43 /\ names_of (UD "numberTypeNames") 4 /\ names_of (UD "sentenceBreakNames") 15 /\
  names_of (UD "scriptNames") 193 /\ names_of (UD "verticalOrientationNames") 4 /\ names_of (UD "wordBreakNames") 23.
Proof. repeat match goal with |- _ /\ _ => split end; refine (enumeration_ok _ _ _); vm_compute; reflexivity. Qed.
Print Assumptions C81_bijective.
Definition as_dict (l : list (Z * string)) : list (pval * pval) := map (fun '(k, s) => (VInt k, VStr (lit s))) l.
Lemma as_dict_find l k : in_dict l k -> exists s, vd_find (as_dict l) (VInt k) = Some (VStr s).
Proof.
  unfold in_dict. intros [s H]. induction l as [|[j t] r IH]; [destruct H|]. cbn. destruct (j =? k)%Z eqn:E; [eauto|].
  destruct H as [[= -> _]|H]; [rewrite Z.eqb_refl in E; discriminate|]. apply IH. exact H.
Qed.
Lemma named_has name l r : UD name = as_dict l -> named l r -> exists k s, r = Ok k /\ vd_get (UD name) (VInt k) = Ok (VStr s).
Proof.
  intros E [k [-> I]]. destruct (as_dict_find _ _ I) as [s F]. exists k, s. split; [reflexivity|]. unfold vd_get. rewrite E, F. reflexivity.
Qed.
(** whatever a getter returns for a code point is named, C33 for the dictionaries as
    Python builds them *)
Definition has_name (name : string) (r : res Z) : Prop := exists k s, r = Ok k /\ vd_get (UD name) (VInt k) = Ok (VStr s).
Theorem C81_getters : forall c, 0 <= c <= 0x10FFFF ->
  has_name "generalCategoryNames" (getGeneralCategory icu c) /\ has_name "scriptNames" (getScript icu c) /\
  has_name "blockNames" (getBlock icu c) /\ has_name "eastAsianWidthNames" (getEastAsianWidth icu c) /\
  has_name "lineBreakNames" (getLineBreak icu c) /\ has_name "sentenceBreakNames" (getSentenceBreak icu c) /\
  has_name "wordBreakNames" (getWordBreak icu c) /\ has_name "graphemeClusterBreakNames" (getGraphemeClusterBreak icu c) /\
  has_name "decompositionTypeNames" (getDecompType icu c) /\
  has_name "bidiClassNames" (getCharDirection icu_bidi c) /\ has_name "joiningTypeNames" (getJoiningType icu_bidi c) /\
  has_name "joiningGroupNames" (getJoiningGroup icu_bidi c).
Proof.
  intros c H. destruct (getters_named c H) as (A1 & A2 & A3 & A4 & A5 & A6 & A7 & A8 & A9). destruct (bidi_named c H) as (B1 & B2 & B3 & _).
  repeat match goal with |- _ /\ _ => split end; (eapply named_has; [|eassumption]; vm_compute; reflexivity).
Qed.
Print Assumptions C81_getters.
Example C81_case : getScript icu 0x1401 = Ok 40 /\ vd_get (UD "scriptNames") (VInt 40) = Ok (VStr (lit "Cans")).
Proof. vm_compute. repeat split. Qed.
(** the hand-written script dictionary has five names twice *)
Theorem C81_bijective_refuted : exists k j s, k <> j /\ vd_find (mdict Scripts_env (lit "scriptCodes")) k = Some (VStr s) /\
  vd_find (mdict Scripts_env (lit "scriptCodes")) j = Some (VStr s).
Proof.
  exists (VInt 40), (VTuple [VInt 40]), (lit "Cans"). split; [discriminate|]. split; vm_compute; reflexivity.
Qed.
Print Assumptions C81_bijective_refuted.

(** The constants of the model are those of the modules: a definition that differed from
    the source would show here. *)
Example model_constants :
  forallb (fun '(n, z) => match dict_find (GeneralCategories_env ++ Characters_env ++ uprops_h_env ++ uscript_h_env ++ CaseProps_env ++ BidiProps_env ++ uchar_h_env)%list (lit n) with
                          | Some (VInt w) => (w =? z)%Z | _ => false end)
  [("GC_UNASSIGNED", CharProps.GC_UNASSIGNED); ("GC_UPPERCASE_LETTER", CharProps.GC_UPPERCASE_LETTER); ("GC_LOWERCASE_LETTER", CharProps.GC_LOWERCASE_LETTER); ("GC_TITLECASE_LETTER", CharProps.GC_TITLECASE_LETTER);
   ("GC_MODIFIER_LETTER", CharProps.GC_MODIFIER_LETTER); ("GC_OTHER_LETTER", CharProps.GC_OTHER_LETTER); ("GC_NON_SPACING_MARK", CharProps.GC_NON_SPACING_MARK); ("GC_ENCLOSING_MARK", CharProps.GC_ENCLOSING_MARK);
   ("GC_COMBINING_SPACING_MARK", CharProps.GC_COMBINING_SPACING_MARK); ("GC_DECIMAL_DIGIT_NUMBER", CharProps.GC_DECIMAL_DIGIT_NUMBER); ("GC_LETTER_NUMBER", CharProps.GC_LETTER_NUMBER); ("GC_OTHER_NUMBER", CharProps.GC_OTHER_NUMBER);
   ("GC_SPACE_SEPARATOR", CharProps.GC_SPACE_SEPARATOR); ("GC_LINE_SEPARATOR", CharProps.GC_LINE_SEPARATOR); ("GC_PARAGRAPH_SEPARATOR", CharProps.GC_PARAGRAPH_SEPARATOR); ("GC_CONTROL_CHAR", CharProps.GC_CONTROL_CHAR);
   ("GC_FORMAT_CHAR", CharProps.GC_FORMAT_CHAR); ("GC_PRIVATE_USE_CHAR", CharProps.GC_PRIVATE_USE_CHAR); ("GC_SURROGATE", CharProps.GC_SURROGATE); ("GC_DASH_PUNCTUATION", CharProps.GC_DASH_PUNCTUATION);
   ("GC_START_PUNCTUATION", CharProps.GC_START_PUNCTUATION); ("GC_END_PUNCTUATION", CharProps.GC_END_PUNCTUATION); ("GC_CONNECTOR_PUNCTUATION", CharProps.GC_CONNECTOR_PUNCTUATION); ("GC_OTHER_PUNCTUATION", CharProps.GC_OTHER_PUNCTUATION);
   ("GC_MATH_SYMBOL", CharProps.GC_MATH_SYMBOL); ("GC_CURRENCY_SYMBOL", CharProps.GC_CURRENCY_SYMBOL); ("GC_MODIFIER_SYMBOL", CharProps.GC_MODIFIER_SYMBOL); ("GC_OTHER_SYMBOL", CharProps.GC_OTHER_SYMBOL);
   ("GC_INITIAL_PUNCTUATION", CharProps.GC_INITIAL_PUNCTUATION); ("GC_FINAL_PUNCTUATION", CharProps.GC_FINAL_PUNCTUATION); ("GC_CN_MASK", CharProps.GC_CN_MASK); ("GC_LU_MASK", CharProps.GC_LU_MASK);
   ("GC_LL_MASK", CharProps.GC_LL_MASK); ("GC_LT_MASK", CharProps.GC_LT_MASK); ("GC_LM_MASK", CharProps.GC_LM_MASK); ("GC_LO_MASK", CharProps.GC_LO_MASK);
   ("GC_MN_MASK", CharProps.GC_MN_MASK); ("GC_ME_MASK", CharProps.GC_ME_MASK); ("GC_MC_MASK", CharProps.GC_MC_MASK); ("GC_ND_MASK", CharProps.GC_ND_MASK);
   ("GC_NL_MASK", CharProps.GC_NL_MASK); ("GC_NO_MASK", CharProps.GC_NO_MASK); ("GC_ZS_MASK", CharProps.GC_ZS_MASK); ("GC_ZL_MASK", CharProps.GC_ZL_MASK);
   ("GC_ZP_MASK", CharProps.GC_ZP_MASK); ("GC_CC_MASK", CharProps.GC_CC_MASK); ("GC_CF_MASK", CharProps.GC_CF_MASK); ("GC_CO_MASK", CharProps.GC_CO_MASK);
   ("GC_CS_MASK", CharProps.GC_CS_MASK); ("GC_PD_MASK", CharProps.GC_PD_MASK); ("GC_PS_MASK", CharProps.GC_PS_MASK); ("GC_PE_MASK", CharProps.GC_PE_MASK);
   ("GC_PC_MASK", CharProps.GC_PC_MASK); ("GC_PO_MASK", CharProps.GC_PO_MASK); ("GC_SM_MASK", CharProps.GC_SM_MASK); ("GC_SC_MASK", CharProps.GC_SC_MASK);
   ("GC_SK_MASK", CharProps.GC_SK_MASK); ("GC_SO_MASK", CharProps.GC_SO_MASK); ("GC_PI_MASK", CharProps.GC_PI_MASK); ("GC_PF_MASK", CharProps.GC_PF_MASK);
   ("GC_L_MASK", CharProps.GC_L_MASK); ("GC_M_MASK", CharProps.GC_M_MASK); ("GC_N_MASK", CharProps.GC_N_MASK); ("GC_Z_MASK", CharProps.GC_Z_MASK);
   ("GC_C_MASK", CharProps.GC_C_MASK); ("GC_P_MASK", CharProps.GC_P_MASK); ("CH_TAB", CharProps.CH_TAB); ("CH_CR", CharProps.CH_CR);
   ("CH_SPACE", CharProps.CH_SPACE); ("CH_NL", CharProps.CH_NL); ("CH_NBSP", CharProps.CH_NBSP); ("CH_FIGURESP", CharProps.CH_FIGURESP);
   ("CH_NNBSP", CharProps.CH_NNBSP); ("UPROPS_NUMERIC_TYPE_VALUE_SHIFT", CharProps.NUMERIC_TYPE_VALUE_SHIFT); ("UPROPS_NTV_NONE", CharProps.NTV_NONE); ("UPROPS_NTV_DECIMAL_START", CharProps.NTV_DECIMAL_START);
   ("UPROPS_NTV_DIGIT_START", CharProps.NTV_DIGIT_START); ("UPROPS_NTV_NUMERIC_START", CharProps.NTV_NUMERIC_START); ("UPROPS_NTV_FRACTION_START", CharProps.NTV_FRACTION_START); ("UPROPS_NTV_LARGE_START", CharProps.NTV_LARGE_START);
   ("UPROPS_NTV_BASE60_START", CharProps.NTV_BASE60_START); ("UPROPS_NTV_FRACTION20_START", CharProps.NTV_FRACTION20_START); ("UPROPS_NTV_FRACTION32_START", CharProps.NTV_FRACTION32_START); ("UPROPS_NTV_RESERVED_START", CharProps.NTV_RESERVED_START);
   ("UPROPS_AGE_SHIFT", CharProps.AGE_SHIFT); ("UPROPS_SCRIPT_X_MASK", CharProps.SCRIPT_X_MASK); ("UPROPS_SCRIPT_HIGH_MASK", CharProps.SCRIPT_HIGH_MASK); ("UPROPS_SCRIPT_HIGH_SHIFT", CharProps.SCRIPT_HIGH_SHIFT);
   ("UPROPS_SCRIPT_LOW_MASK", CharProps.SCRIPT_LOW_MASK); ("UPROPS_SCRIPT_X_WITH_COMMON", CharProps.SCRIPT_X_WITH_COMMON); ("UPROPS_SCRIPT_X_WITH_INHERITED", CharProps.SCRIPT_X_WITH_INHERITED); ("UPROPS_SCRIPT_X_WITH_OTHER", CharProps.SCRIPT_X_WITH_OTHER);
   ("UPROPS_EA_MASK", CharProps.EA_MASK); ("UPROPS_EA_SHIFT", CharProps.EA_SHIFT); ("UPROPS_BLOCK_MASK", CharProps.BLOCK_MASK); ("UPROPS_BLOCK_SHIFT", CharProps.BLOCK_SHIFT);
   ("UPROPS_BINARY_1_TOP", CharProps.BINARY_1_TOP); ("UPROPS_LB_MASK", CharProps.LB_MASK); ("UPROPS_LB_SHIFT", CharProps.LB_SHIFT); ("UPROPS_SB_MASK", CharProps.SB_MASK);
   ("UPROPS_SB_SHIFT", CharProps.SB_SHIFT); ("UPROPS_WB_MASK", CharProps.WB_MASK); ("UPROPS_WB_SHIFT", CharProps.WB_SHIFT); ("UPROPS_GCB_MASK", CharProps.GCB_MASK);
   ("UPROPS_GCB_SHIFT", CharProps.GCB_SHIFT); ("UPROPS_DT_MASK", CharProps.DT_MASK); ("UPROPS_WHITE_SPACE", CharProps.WHITE_SPACE); ("UPROPS_ALPHABETIC", CharProps.ALPHABETIC);
   ("UPROPS_NONCHARACTER_CODE_POINT", CharProps.NONCHARACTER_CODE_POINT); ("USCRIPT_INVALID_CODE", CharProps.USCRIPT_INVALID_CODE); ("USCRIPT_COMMON", CharProps.USCRIPT_COMMON); ("USCRIPT_INHERITED", CharProps.USCRIPT_INHERITED);
   ("UCASE_TYPE_MASK", CaseProps.UCASE_TYPE_MASK); ("UCASE_LOWER", CaseProps.UCASE_LOWER); ("UCASE_UPPER", CaseProps.UCASE_UPPER); ("UCASE_TITLE", CaseProps.UCASE_TITLE);
   ("UCASE_IGNORABLE", CaseProps.UCASE_IGNORABLE); ("UCASE_EXCEPTION", CaseProps.UCASE_EXCEPTION); ("UCASE_PROPS_BITS", CaseProps.UCASE_PROPS_BITS); ("UCASE_DELTA_BITS", CaseProps.UCASE_DELTA_BITS);
   ("UCASE_EXC_SHIFT", CaseProps.UCASE_EXC_SHIFT); ("UCASE_EXC_LOWER", CaseProps.UCASE_EXC_LOWER); ("UCASE_EXC_FOLD", CaseProps.UCASE_EXC_FOLD); ("UCASE_EXC_UPPER", CaseProps.UCASE_EXC_UPPER);
   ("UCASE_EXC_TITLE", CaseProps.UCASE_EXC_TITLE); ("UCASE_EXC_DELTA", CaseProps.UCASE_EXC_DELTA); ("UCASE_EXC_FULL_MAPPINGS", CaseProps.UCASE_EXC_FULL_MAPPINGS); ("UCASE_EXC_DOUBLE_SLOTS", CaseProps.UCASE_EXC_DOUBLE_SLOTS);
   ("UCASE_EXC_DELTA_IS_NEGATIVE", CaseProps.UCASE_EXC_DELTA_IS_NEGATIVE); ("UCASE_EXC_CONDITIONAL_SPECIAL", CaseProps.UCASE_EXC_CONDITIONAL_SPECIAL); ("UCASE_FULL_LOWER", CaseProps.UCASE_FULL_LOWER); ("UBIDI_IX_JG_START", BidiProps.UBIDI_IX_JG_START);
   ("UBIDI_IX_JG_LIMIT", BidiProps.UBIDI_IX_JG_LIMIT); ("UBIDI_IX_JG_START2", BidiProps.UBIDI_IX_JG_START2); ("UBIDI_IX_JG_LIMIT2", BidiProps.UBIDI_IX_JG_LIMIT2); ("UBIDI_JT_SHIFT", BidiProps.UBIDI_JT_SHIFT);
   ("UBIDI_BPT_SHIFT", BidiProps.UBIDI_BPT_SHIFT); ("UBIDI_JOIN_CONTROL_SHIFT", BidiProps.UBIDI_JOIN_CONTROL_SHIFT); ("UBIDI_BIDI_CONTROL_SHIFT", BidiProps.UBIDI_BIDI_CONTROL_SHIFT); ("UBIDI_IS_MIRRORED_SHIFT", BidiProps.UBIDI_IS_MIRRORED_SHIFT);
   ("UBIDI_MIRROR_DELTA_SHIFT", BidiProps.UBIDI_MIRROR_DELTA_SHIFT); ("UBIDI_MIRROR_DELTA_BITS", BidiProps.UBIDI_MIRROR_DELTA_BITS); ("UBIDI_CLASS_MASK", BidiProps.UBIDI_CLASS_MASK); ("UBIDI_JT_MASK", BidiProps.UBIDI_JT_MASK);
   ("UBIDI_BPT_MASK", BidiProps.UBIDI_BPT_MASK); ("UBIDI_ESC_MIRROR_DELTA", BidiProps.UBIDI_ESC_MIRROR_DELTA); ("UBIDI_MIRROR_INDEX_SHIFT", BidiProps.UBIDI_MIRROR_INDEX_SHIFT); ("U_JG_NO_JOINING_GROUP", BidiProps.U_JG_NO_JOINING_GROUP)] = true.
Proof. vm_compute. reflexivity. Qed.
