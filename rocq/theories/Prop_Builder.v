(** * Properties C85-C88: ModuleBuilder and UCDReader *)
From Coq Require Import ZArith List Bool Lia String.
From Verif Require Import Py Dict PyStr Utilities CharNames PyText HeaderDecls ModuleBuilder PyModule ModuleFacts Data_Modules BuilderFacts.
Import ListNotations.
Open Scope string_scope.
Open Scope list_scope.
Open Scope Z_scope.
Local Notation length := List.length.
Local Notation concat := List.concat.

(** ** C85: the declarations of a C file *)
(** [first_at p a]: in a text that begins with a and goes on with p, no p comes before that
    one.  [dense s] is s without white space.  An array of the C file, found by its name,
    becomes a Python list with the same text between the brackets but for white space.
    Missing: the name must not be the end of a longer name declared before. *)
Theorem C85_array_partial : forall name pre dim body post, word name -> first_at (name ++ lit "[") pre ->
  dim <> [] -> first_at (lit "]={") (tl dim) -> body <> [] -> first_at (lit "};") (tl body) ->
  exists text, arrayToPython (pre ++ name ++ lit "[" ++ dim ++ lit "]={" ++ body ++ lit "};" ++ post) name = Ok text /\
    dense text = name ++ lit "=[" ++ dense body ++ lit "]".
Proof.
  intros name pre dim body post W F D FD B FB. exists (arrayText name body). split; [|apply array_dense; exact W].
  unfold arrayToPython. rewrite array_found by assumption. reflexivity.
Qed.
Print Assumptions C85_array_partial.
Theorem C85_scalar_partial : forall name pre value post, first_at (name ++ lit "=") pre -> value <> [] -> ~ In 10 value -> post = [] \/ (exists r, post = 10 :: r) ->
  scalarToPython (pre ++ (name ++ lit "=") ++ value ++ lit ";" ++ post) name = Ok (name ++ lit " = " ++ value ++ [10]).
Proof. intros name pre value post F N L P. unfold scalarToPython. rewrite scalar_found by assumption. reflexivity. Qed.
Print Assumptions C85_scalar_partial.
(** The name may be the end of another one: the wrong array is taken. *)
Theorem C85_name_refuted : arrayToPython (lit "int xab[2]={1,2};int ab[1]={3};") (lit "ab") = Ok (lit "ab = [1,2]" ++ [10]) /\
  scalarToPython (lit "int n=1; int m=2;") (lit "n") = Ok (lit "n = 1; int m=2" ++ [10]).
Proof. split; vm_compute; reflexivity. Qed.
Print Assumptions C85_name_refuted.
Lemma absent_check p s : p <> [] -> cut p s = None -> absent p s.
Proof.
  intros N. induction s as [|c s IH]; intros C a b E.
  - destruct a; [|discriminate]. destruct p; [contradiction|discriminate].
  - cbn [cut] in C. destruct (starts p (c :: s)) eqn:S; [discriminate|]. destruct (cut p s) as [[? ?]|] eqn:Q; [discriminate|].
    destruct a as [|x a]; [cbn [app] in E; rewrite E in S; rewrite HeaderFacts.starts_app in S; discriminate|]. inversion E as [[E1 E2]]. subst. exact (IH eq_refl a b eq_refl).
Qed.
Definition sample_source : str := lit "static const uint16_t t_index[4]={" ++ [10] ++ lit "0x1,2," ++ [10] ++ lit "3,4};" ++ [10] ++ lit "n=5;" ++ [10].
Example C85_case : arrayToPython sample_source (lit "t_index") = Ok (lit "t_index = [" ++ [10] ++ lit "    0x1,2," ++ [10] ++ lit "    3,4" ++ [10] ++ lit "]" ++ [10]) /\
  scalarToPython sample_source (lit "n") = Ok (lit "n = 5" ++ [10]) /\
  exists text, arrayToPython sample_source (lit "t_index") = Ok text /\ dense text = lit "t_index=[0x1,2,3,4]".
Proof.
  split; [vm_compute; reflexivity|]. split; [vm_compute; reflexivity|].
  apply (C85_array_partial (lit "t_index") (lit "static const uint16_t ") (lit "4") ([10] ++ lit "0x1,2," ++ [10] ++ lit "3,4") ([10] ++ lit "n=5;" ++ [10])).
  - split; [discriminate|vm_compute; reflexivity].
  - apply absent_check; [discriminate|vm_compute; reflexivity].
  - discriminate.
  - apply absent_check; [discriminate|vm_compute; reflexivity].
  - discriminate.
  - apply absent_check; [discriminate|vm_compute; reflexivity].
Qed.

(** ** C86: the fields of a trie *)
(** The initialiser of a UTrie2 has its fields, one to a line, in the order of the struct in
    utrie2.h: index, data16, data32, indexLength, dataLength, index2NullOffset,
    dataNullOffset, initialValue, errorValue, highStart, highValueIndex, ... The module gets
    exactly the five needed, under their names; with fewer than eleven fields there is an
    IndexError. *)
Definition utrie2_fields : list string :=
  ["index"; "data16"; "data32"; "indexLength"; "dataLength"; "index2NullOffset"; "dataNullOffset"; "initialValue"; "errorValue"; "highStart"; "highValueIndex"].
Definition field (fs : list str) (name : string) : str :=
  nth 0 (map snd (filter (fun p => String.eqb (fst p) name) (combine utrie2_fields fs))) [].
Theorem C86_trie : forall fs prefix, fs <> [] -> Forall (first_at (lit "," ++ [10])) fs ->
  trieValues (join (lit "," ++ [10]) fs) prefix =
    if (length fs <? 11)%nat then Err IndexError else
    Ok [prefix ++ lit "_index_length = " ++ trim (field fs "indexLength"); prefix ++ lit "_index_2_null_offset = " ++ trim (field fs "index2NullOffset");
        prefix ++ lit "_data_null_offset = " ++ trim (field fs "dataNullOffset"); prefix ++ lit "_high_start = " ++ trim (field fs "highStart");
        prefix ++ lit "_high_value_index = " ++ trim (field fs "highValueIndex"); []].
Proof.
  intros fs prefix N F. unfold trieValues. rewrite split_fields; [|discriminate|exact N|exact F].
  destruct fs as [|f0 [|f1 [|f2 [|f3 [|f4 [|f5 [|f6 [|f7 [|f8 [|f9 [|f10 fs]]]]]]]]]]]; reflexivity.
Qed.
Print Assumptions C86_trie.
(** through the declarations *)
Theorem C86_declaration : forall name pre fs post prefix, first_at (name ++ lit "={" ++ [10]) pre -> fs <> [] -> Forall (first_at (lit "," ++ [10])) fs ->
  join (lit "," ++ [10]) fs <> [] -> first_at ([10] ++ lit "};") (tl (join (lit "," ++ [10]) fs)) ->
  trieValuesFromTrieDeclaration (pre ++ (name ++ lit "={" ++ [10]) ++ join (lit "," ++ [10]) fs ++ ([10] ++ lit "};") ++ post) name prefix = trieValues (join (lit "," ++ [10]) fs) prefix.
Proof. intros name pre fs post prefix F N A B C. unfold trieValuesFromTrieDeclaration. rewrite props_found by assumption. reflexivity. Qed.
Print Assumptions C86_declaration.
Definition sample_fields : list str := map (fun s => lit "    " ++ lit s)
  ["propsTrie_index"; "propsTrie_index+4692"; "NULL"; "4692"; "17848"; "0xa40"; "0x1254"; "0x0"; "0x0"; "0x110000"; "0x57fc"; "NULL, 0, FALSE, FALSE, 0, NULL"].
Example C86_case : trieValuesFromTrieDeclaration (lit "static const UTrie2 propsTrie={" ++ [10] ++ join (lit "," ++ [10]) sample_fields ++ [10] ++ lit "};") (lit "propsTrie") (lit "propsTrie") =
  Ok [lit "propsTrie_index_length = 4692"; lit "propsTrie_index_2_null_offset = 0xa40"; lit "propsTrie_data_null_offset = 0x1254"; lit "propsTrie_high_start = 0x110000"; lit "propsTrie_high_value_index = 0x57fc"; []].
Proof.
  assert (F : Forall (first_at (lit "," ++ [10])) sample_fields) by (repeat (constructor; [apply absent_check; [discriminate|vm_compute; reflexivity]|]); constructor).
  pose proof (C86_declaration (lit "propsTrie") (lit "static const UTrie2 ") sample_fields [] (lit "propsTrie")) as H.
  rewrite C86_trie in H; [|discriminate|exact F]. etransitivity; [|etransitivity; [apply H|reflexivity]].
  - rewrite app_nil_r. reflexivity.
  - apply absent_check; [discriminate|vm_compute; reflexivity].
  - discriminate.
  - exact F.
  - discriminate.
  - apply absent_check; [discriminate|vm_compute; reflexivity].
Qed.

(** ** C87: the dictionaries of UCDReader *)
(** For all rows with enough cells: the version is that of the last "ucd" row; the types are
    the known ones of the "value" rows, in the order of their first rows; for each the lines
    are those of its rows, in order, with the constant that the table of exceptions or the
    upper case of the long name gives, and without the rows whose constant is "".  A row
    with too few cells raises IndexError. *)
Theorem C87_dictionaries : forall rows, Forall row_ok rows -> generateDictionaries rows = Ok (lastVersion rows, linesOf rows).
Proof. exact generate_ok. Qed.
Print Assumptions C87_dictionaries.
Theorem C87_short : forall rows row rest, Forall row_ok rows -> ~ row_ok row -> generateDictionaries (rows ++ row :: rest) = Err IndexError.
Proof. exact generate_short. Qed.
Print Assumptions C87_short.
(** What the rows of a type give, spelled out: the name is the short name, in lower case for
    decomposition types, unchanged for the two Indic properties, and with spaces for "_"
    for the others; the constant ends in the upper case of the long name, unless the long
    name is in the table of exceptions; none is given if the table has "" for it. *)
Definition nameText (t s : str) : str :=
  if str_eqb t (lit "dt") then map (fun c => if (65 <=? c) && (c <=? 90) then c + 32 else c) s
  else if str_eqb t (lit "InPC") then s else if str_eqb t (lit "InSC") then s
  else map (fun c => if c =? 95 then 32 else c) s.
Theorem C87_names : forall t p s l, In (t, p) prefixes ->
  entryOf p s l =
    match dict_find (tp_map p) l with
    | Some [] => []
    | Some k => [(tp_prefix p ++ lit "_" ++ k, nameText t s)]
    | None => [(tp_prefix p ++ lit "_" ++ map (fun c => if (97 <=? c) && (c <=? 122) then c - 32 else c) l, nameText t s)]
    end.
Proof.
  assert (R : forall s, py_replace s 95 [32] = map (fun c => if c =? 95 then 32 else c) s).
  { intros s. unfold py_replace. induction s as [|c s IH]; [reflexivity|]. cbn [flat_map map]. rewrite IH. destruct (c =? 95); reflexivity. }
  assert (N : forall t p s, In (t, p) prefixes -> applyShort (tp_fun p) s = nameText t s).
  { intros t p s H. repeat (destruct H as [[= <- <-]|H]; [first [reflexivity|exact (R s)]|]). destruct H. }
  intros t p s l H. unfold entryOf. rewrite (N t p s H). reflexivity.
Qed.
Print Assumptions C87_names.
(** Every constant in the tables of exceptions is one of the header modules. *)
Theorem C87_exceptions : forall t p l k, In (t, p) prefixes -> In (l, k) (tp_map p) -> k <> [] ->
  exists z, dict_find (uchar_h_env ++ uscript_h_env) (tp_prefix p ++ lit "_" ++ k) = Some (VInt z).
Proof.
  assert (E : forallb (fun '(t, p) => forallb (fun '(l, k) => match k with [] => true | _ =>
    match dict_find (uchar_h_env ++ uscript_h_env) (tp_prefix p ++ lit "_" ++ k) with Some (VInt _) => true | _ => false end end) (tp_map p)) prefixes = true) by (vm_compute; reflexivity).
  intros t p l k I1 I2 N. rewrite forallb_forall in E. specialize (E _ I1). cbv beta iota in E. rewrite forallb_forall in E. specialize (E _ I2). cbv beta iota in E.
  destruct k; [contradiction|]. destruct (dict_find _ _) as [[w| | | | |]|]; try discriminate. eauto.
Qed.
Print Assumptions C87_exceptions.
Definition R (l : list string) : list str := map lit l.
Definition sample_rows : list (list str) :=
  [R ["ucd"; "13.0.0"]; []; R ["value"; "gc"; "C"; "Other"]; R ["value"; "gc"; "Cc"; "Control"]; R ["value"; "bc"; "AL"; "Arabic_Letter"];
   R ["value"; "gc"; "Lu"; "Uppercase_Letter"]; R ["value"; "age"; "1.1"; "V1_1"]; R ["value"; "dt"; "Can"; "Canonical"]; R ["block"; "0000..007F"]].
Example C87_case : Forall row_ok sample_rows /\ lastVersion sample_rows = Some (lit "13.0.0") /\
  linesOf sample_rows = [(lit "gc", [lit "    U_CONTROL_CHAR: " ++ [34] ++ lit "Cc" ++ [34]; lit "    U_UPPERCASE_LETTER: " ++ [34] ++ lit "Lu" ++ [34]]);
    (lit "bc", [lit "    U_RIGHT_TO_LEFT_ARABIC: " ++ [34] ++ lit "AL" ++ [34]]); (lit "dt", [lit "    U_DT_CANONICAL: " ++ [34] ++ lit "can" ++ [34]])].
Proof.
  split; [|split; vm_compute; reflexivity]. unfold sample_rows.
  repeat (apply Forall_cons; [first [exact I|split; intros H; first [cbn; lia|vm_compute in H; discriminate H]]|]). apply Forall_nil.
Qed.

(** ** C88: the module UCDTypeDictionaries *)
(** What writeFile writes after the header lines is the text of one assignment of a
    dictionary for each type. *)
Theorem C88_text : forall prefixLines rows, writeFile prefixLines (linesOf rows) =
  Ok (concat (map (fun l => l ++ [10]) prefixLines) ++ concat (map (fun t => render (dictOf t rows)) (typesOf rows))).
Proof. intros prefixLines rows. unfold writeFile. rewrite write_render. reflexivity. Qed.
Print Assumptions C88_text.
(** Python runs such an assignment if all constants are defined, and then the dictionary has
    for each value the name in the last row for it. *)
Theorem C88_run : forall env t rows ks, constants env (entriesOf t (prefixOf t) rows) ks ->
  exists d, step env (dictOf t rows) = Ok (dict_set env (tp_name (prefixOf t) ++ lit "Names") (VDict d)) /\
  forall j, vd_find d (VInt j) = fold_left (fun acc '(e, k) => if k =? j then Some (VStr (snd e)) else acc) (combine (entriesOf t (prefixOf t) rows) ks) None.
Proof.
  intros env t rows ks C. exists (filled (entriesOf t (prefixOf t) rows) ks). split.
  - unfold dictOf. cbn [step]. rewrite (eval_dict _ _ _ C). reflexivity.
  - apply filled_get. clear -C. induction C; cbn; [reflexivity|]. f_equal. assumption.
Qed.
Print Assumptions C88_run.
(** The shipped UCDTypeDictionaries.py is such a module. *)
Definition shipped_rows : list (list str) :=
  flat_map (fun s => match s with
    | SAssign n (EDict l) =>
        match find (fun '(t, p) => str_eqb (tp_name p ++ lit "Names") n) prefixes with
        | Some (t, p) => map (fun '(k, v) => match k, v with EName a, EStr b => [lit "value"; t; b; skipn (length (tp_prefix p ++ lit "_")) a] | _, _ => [] end) l
        | None => [] end
    | _ => [] end) UCDTypeDictionaries_src.
Theorem C88_shipped : exists rows, Forall row_ok rows /\
  UCDTypeDictionaries_src = SImport uchar_h_env :: SImport uscript_h_env :: map (fun t => dictOf t rows) (typesOf rows) /\
  (800 < length rows)%nat.
Proof.
  exists shipped_rows. split; [|split].
  - assert (E : forallb (fun r => match r with [k; _; _; _] => str_eqb k (lit "value") | _ => false end) shipped_rows = true) by (vm_compute; reflexivity).
    apply Forall_forall. intros r I. rewrite forallb_forall in E. specialize (E r I). destruct r as [|k [|a [|b [|c [|]]]]]; try discriminate. split; intros _; cbn; lia.
  - vm_compute. reflexivity.
  - apply Nat.ltb_lt. vm_compute. reflexivity.
Qed.
Print Assumptions C88_shipped.
(** A quotation mark in a short name is not escaped: the text is not that of a string. *)
Theorem C88_quote_refuted : exists rows t, Forall row_ok rows /\ linesOf rows = [(t, [lit "    U_LB_A: " ++ [34] ++ lit "a" ++ [34] ++ lit "b" ++ [34]])].
Proof.
  exists [[lit "value"; lit "lb"; lit "a" ++ [34] ++ lit "b"; lit "A"]], (lit "lb"). split; [|vm_compute; reflexivity].
  constructor; [|constructor]. split; intros _; cbn; lia.
Qed.
Print Assumptions C88_quote_refuted.
Example C88_case : exists env, run [] (SImport uchar_h_env :: SImport uscript_h_env :: map (fun t => dictOf t sample_rows) (typesOf sample_rows)) = Ok env /\
  vd_get (mdict env (lit "generalCategoryNames")) (VInt 1) = Ok (VStr (lit "Lu")).
Proof. eexists. split; [vm_compute; reflexivity|vm_compute; reflexivity]. Qed.
