(** * Property C100: the tables of the model are what Python reads in the text of the modules *)
From Coq Require Import ZArith List Bool Lia String.
From Verif Require Import Py Dict Arr Utilities CharNames PyText PyModule PyParse Data_Modules Data_Text Data_Bidi Data_Case Data_CharProps Data_NFC.
Import ListNotations.
Open Scope string_scope.
Open Scope list_scope.
Open Scope Z_scope.

(** the text of a file, from its lines *)
Definition fileText (l : list string) : str := join [10] (map lit l).
(** the modules that UCDTypeDictionaries.py imports *)
Definition package (m : str) : option (dict pval) :=
  if str_eqb m (lit "uchar_h") then Some uchar_h_env else if str_eqb m (lit "uscript_h") then Some uscript_h_env else None.
Definition ints (l : list Z) : pval := VList (map VInt l).

(** ** C100

    The statements of Data_Modules.v are those of the text of each module; importing the
    text gives the environments used in C77 to C81. *)
Definition constantModules : list (list string * list stmt * dict pval) := [
  (uchar_h_lines, uchar_h_src, uchar_h_env); (uscript_h_lines, uscript_h_src, uscript_h_env); (ucase_h_lines, ucase_h_src, ucase_h_env);
  (uprops_h_lines, uprops_h_src, uprops_h_env); (Blocks_lines, Blocks_src, Blocks_env); (Boundaries_lines, Boundaries_src, Boundaries_env);
  (CharDirection_lines, CharDirection_src, CharDirection_env); (Characters_lines, Characters_src, Characters_env);
  (DecompositionType_lines, DecompositionType_src, DecompositionType_env); (EastAsianWidth_lines, EastAsianWidth_src, EastAsianWidth_env);
  (GeneralCategories_lines, GeneralCategories_src, GeneralCategories_env); (JoiningTypesAndGroups_lines, JoiningTypesAndGroups_src, JoiningTypesAndGroups_env);
  (LayoutTypes_lines, LayoutTypes_src, LayoutTypes_env); (Scripts_lines, Scripts_src, Scripts_env);
  (UCDTypeDictionaries_lines, UCDTypeDictionaries_src, UCDTypeDictionaries_env)].
Lemma constants_parse : map (fun '(t, _, _) => parseModule package (fileText t)) constantModules = map (fun '(_, s, _) => Some s) constantModules.
Proof. vm_cast_no_check (eq_refl (map (fun '(_, s, _) => Some s) constantModules)). Qed.
Lemma constants_exec : Forall (fun '(_, s, e) => exec s = Ok e) constantModules.
Proof.
  unfold constantModules.
  repeat (constructor; [first [exact uchar_h_is|exact uscript_h_is|exact ucase_h_is|exact uprops_h_is|exact Blocks_is|exact Boundaries_is|exact CharDirection_is|exact Characters_is
    |exact DecompositionType_is|exact EastAsianWidth_is|exact GeneralCategories_is|exact JoiningTypesAndGroups_is|exact LayoutTypes_is|exact Scripts_is|exact UCDTypeDictionaries_is]|]). constructor.
Qed.
Theorem C100_constants : forall t s e, In (t, s, e) constantModules -> parseModule package (fileText t) = Some s /\ importText package (fileText t) = Ok e.
Proof.
  intros t s e I. assert (P : parseModule package (fileText t) = Some s).
  { pose proof constants_parse as Q. revert I Q. generalize constantModules. intros l. induction l as [|[[t' s'] e'] l IH]; intros I Q; [destruct I|].
    cbn [map] in Q. injection Q as Q1 Q2. destruct I as [E|I]; [injection E as -> -> ->; exact Q1|apply IH; assumption]. }
  split; [exact P|]. unfold importText. rewrite P. pose proof constants_exec as F. rewrite Forall_forall in F. exact (F _ I).
Qed.
Print Assumptions C100_constants.

(** The data modules *)
Theorem C100_bidi : importText package (fileText BidiPropsData_lines) = Ok [
  (lit "ubidi_props_indexes", ints ubidi_props_indexes_list); (lit "ubidi_props_trieIndex", ints ubidi_props_trieIndex_list);
  (lit "ubidi_props_mirrors", ints ubidi_props_mirrors_list); (lit "ubidi_props_jgArray", ints ubidi_props_jgArray_list);
  (lit "ubidi_props_jgArray2", ints ubidi_props_jgArray2_list);
  (lit "ubidi_props_trie_index_length", VInt ubidi_props_trie_index_length);
  (lit "ubidi_props_trie_index_2_null_offset", VInt ubidi_props_trie_index_2_null_offset);
  (lit "ubidi_props_trie_data_null_offset", VInt ubidi_props_trie_data_null_offset);
  (lit "ubidi_props_trie_high_start", VInt ubidi_props_trie_high_start);
  (lit "ubidi_props_trie_high_value_index", VInt ubidi_props_trie_high_value_index)].
Proof. match goal with |- _ = ?x => vm_cast_no_check (eq_refl x) end. Qed.
Print Assumptions C100_bidi.
Theorem C100_caseProps : importText package (fileText CasePropsData_lines) = Ok [
  (lit "ucase_props_indexes", ints ucase_props_indexes_list); (lit "ucase_props_trieIndex", ints ucase_props_trieIndex_list);
  (lit "ucase_props_exceptions", ints ucase_props_exceptions_list); (lit "ucase_props_unfold", ints ucase_props_unfold_list);
  (lit "ucase_props_trie_index_length", VInt ucase_props_trie_index_length);
  (lit "ucase_props_trie_index_2_null_offset", VInt ucase_props_trie_index_2_null_offset);
  (lit "ucase_props_trie_data_null_offset", VInt ucase_props_trie_data_null_offset);
  (lit "ucase_props_trie_high_start", VInt ucase_props_trie_high_start);
  (lit "ucase_props_trie_high_value_index", VInt ucase_props_trie_high_value_index)].
Proof. match goal with |- _ = ?x => vm_cast_no_check (eq_refl x) end. Qed.
Print Assumptions C100_caseProps.
Theorem C100_charProps : importText package (fileText CharPropsData_lines) = Ok [
  (lit "propsTrie_index", ints propsTrie_index_list); (lit "propsTrie_index_length", VInt propsTrie_index_length);
  (lit "propsTrie_index_2_null_offset", VInt propsTrie_index_2_null_offset); (lit "propsTrie_data_null_offset", VInt propsTrie_data_null_offset);
  (lit "propsTrie_high_start", VInt propsTrie_high_start); (lit "propsTrie_high_value_index", VInt propsTrie_high_value_index);
  (lit "propsVectorsTrie_index", ints propsVectorsTrie_index_list); (lit "propsVectorsTrie_index_length", VInt propsVectorsTrie_index_length);
  (lit "propsVectorsTrie_index_2_null_offset", VInt propsVectorsTrie_index_2_null_offset); (lit "propsVectorsTrie_data_null_offset", VInt propsVectorsTrie_data_null_offset);
  (lit "propsVectorsTrie_high_start", VInt propsVectorsTrie_high_start); (lit "propsVectorsTrie_high_value_index", VInt propsVectorsTrie_high_value_index);
  (lit "propsVectors", ints propsVectors_list); (lit "propsVectorsColumns", VInt propsVectorsColumns); (lit "scriptExtensions", ints scriptExtensions_list)].
Proof. match goal with |- _ = ?x => vm_cast_no_check (eq_refl x) end. Qed.
Print Assumptions C100_charProps.
Theorem C100_nfc : importText package (fileText Norm2NFCData_lines) = Ok [
  (lit "norm2_nfc_data_indexLength", VInt norm2_nfc_data_indexLength); (lit "norm2_nfc_data_dataLength", VInt norm2_nfc_data_dataLength);
  (lit "norm2_nfc_data_highStart", VInt norm2_nfc_data_highStart); (lit "norm2_nfc_data_shifted12HighStart", VInt norm2_nfc_data_shifted12HighStart);
  (lit "norm2_nfc_data_type", VInt norm2_nfc_data_type); (lit "norm2_nfc_data_valueWidth", VInt norm2_nfc_data_valueWidth);
  (lit "norm2_nfc_data_index3NullOffset", VInt norm2_nfc_data_index3NullOffset); (lit "norm2_nfc_data_dataNullOffset", VInt norm2_nfc_data_dataNullOffset);
  (lit "norm2_nfc_data_nullValue", VInt norm2_nfc_data_nullValue); (lit "norm2_nfc_data_indexes", ints norm2_nfc_data_indexes_list);
  (lit "norm2_nfc_data_trieIndex", ints norm2_nfc_data_trieIndex_list); (lit "norm2_nfc_data_trieData", ints norm2_nfc_data_trieData_list);
  (lit "norm2_nfc_data_extraData", ints norm2_nfc_data_extraData_list); (lit "norm2_nfc_data_smallFCD", ints norm2_nfc_data_smallFCD_list)].
Proof. match goal with |- _ = ?x => vm_cast_no_check (eq_refl x) end. Qed.
Print Assumptions C100_nfc.
Theorem C100_version : importText package (fileText UnicodeVersion_lines) = Ok [(lit "unicodeVersion", VStr (lit "13.0.0"))].
Proof. vm_compute. reflexivity. Qed.
Print Assumptions C100_version.
(** a small module, and one with a numeral that Python does not take *)
Example C100_case : importText package (fileText ["""""""/"; "x"; """"""""; "A = 0x10  # comment"; "B = [1,"; "    2]"; "C = (A|3)<<1,"; "d = {A: 'a', B2: ""b""}"]) = Err NameError /\
  importText package (fileText ["""""""/"; "x"; """"""""; "A = 0x10  # comment"; "B = [1,"; "    2]"; "C = (A|3)<<1,"; "d = {A: 'a'}"]) =
    Ok [(lit "A", VInt 16); (lit "B", ints [1; 2]); (lit "C", VTuple [VInt 38]); (lit "d", VDict [(VInt 16, VStr (lit "a"))])] /\
  importText package (fileText ["A = 010"]) = Err SyntaxError /\ importText package (fileText ["  A = 10"]) = Err SyntaxError.
Proof. vm_compute. auto. Qed.
