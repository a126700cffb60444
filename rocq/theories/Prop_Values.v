(** * Property C101: the built data modules have the numbers of the C source *)
From Coq Require Import ZArith List Bool Lia String.
From Verif Require Import Py Dict PyStr Utilities CharNames PyText ModuleBuilder HeaderFile HeaderFacts BuilderArgs Build BuildFacts BuilderFacts PyModule PyParse ParseFacts Prop_Build Prop_Builder Prop_Outputs.
Import ListNotations.
Open Scope string_scope.
Open Scope list_scope.
Open Scope Z_scope.
Local Notation length := List.length.
Local Notation concat := List.concat.

(** ** The C source

    [listing body zs]: the text [body] consists of numerals with the values [zs], decimal or
    hexadecimal, with commas between them and white space around them (ParseFacts.v). *)
Definition cArray (s : str) (name : string) (zs : list Z) : Prop :=
  exists pre dim body post, s = pre ++ lit name ++ lit "[" ++ dim ++ lit "]={" ++ body ++ lit "};" ++ post /\
    first_at (lit name ++ lit "[") pre /\ dim <> [] /\ first_at (lit "]={") (tl dim) /\ listing body zs.
Definition cScalar (s : str) (name : string) (z : Z) : Prop :=
  exists pre v post, s = pre ++ (lit name ++ lit "=") ++ v ++ lit ";" ++ post /\ first_at (lit name ++ lit "=") pre /\ numeral v z /\ (post = [] \/ exists r, post = 10 :: r).
(** the numbers of a trie, in the order of the struct of utrie2.h *)
Record trieNumbers := { indexLength : Z; index2NullOffset : Z; dataNullOffset : Z; highStart : Z; highValueIndex : Z }.
Definition cFields (fs : list str) (t : trieNumbers) : Prop :=
  (11 <= length fs)%nat /\ Forall (first_at (lit "," ++ [10])) fs /\
  numeral (trim (field fs "indexLength")) (indexLength t) /\ numeral (trim (field fs "index2NullOffset")) (index2NullOffset t) /\
  numeral (trim (field fs "dataNullOffset")) (dataNullOffset t) /\ numeral (trim (field fs "highStart")) (highStart t) /\ numeral (trim (field fs "highValueIndex")) (highValueIndex t).
Definition cTrie (s : str) (name : string) (t : trieNumbers) : Prop :=
  exists pre fs post, let body := join (lit "," ++ [10]) fs in s = pre ++ (lit name ++ lit "={" ++ [10]) ++ body ++ ([10] ++ lit "};") ++ post /\
    first_at (lit name ++ lit "={" ++ [10]) pre /\ body <> [] /\ first_at ([10] ++ lit "};") (tl body) /\ cFields fs t.
(** a struct with a trie inside *)
Definition cPropsTrie (s : str) (name : string) (t : trieNumbers) : Prop :=
  exists pre a fs b post, let trie := join (lit "," ++ [10]) fs in let body := a ++ (lit "{" ++ [10]) ++ trie ++ lit "}" ++ b in
    s = pre ++ (lit name ++ lit "={" ++ [10]) ++ body ++ ([10] ++ lit "};") ++ post /\
    first_at (lit name ++ lit "={" ++ [10]) pre /\ first_at ([10] ++ lit "};") (tl body) /\
    first_at (lit "{" ++ [10]) a /\ trie <> [] /\ first_at (lit "}") (tl trie) /\ cFields fs t.

(** ** Each declaration *)
Lemma listing_nonempty body zs : listing body zs -> body <> [] /\ first_at (lit "};") (tl body).
Proof.
  intros H. assert (NN : forall s z, numeral s z -> s <> [] /\ ~ In 125 s).
  { intros s z N. destruct (numeral_form s z N) as (c & w & -> & D & W). split; [discriminate|]. intros [->|I]; [discriminate D|]. rewrite forallb_forall in W. specialize (W _ I). discriminate W. }
  assert (NW : forall w, white w -> ~ In 125 w).
  { intros w W I. unfold white in W. rewrite Forall_forall in W. specialize (W _ I). lia. }
  assert (B : body <> [] /\ ~ In 125 body).
  { induction H as [a s z b A N B|a s z b c A N B C|a s z b r zs A N B H IH]; (split; [destruct a; [destruct (NN s z N) as [? _]; destruct s; [contradiction|discriminate]|discriminate]|]);
      intros I; rewrite !in_app_iff in I; destruct (NN s z N) as [_ NS].
    - destruct I as [I|[I|I]]; [elim (NW a A I)|elim (NS I)|elim (NW b B I)].
    - destruct I as [I|[I|[I|[I|I]]]]; [elim (NW a A I)|elim (NS I)|elim (NW b B I)|destruct I as [I|[]]; discriminate I|elim (NW c C I)].
    - destruct I as [I|[I|[I|[I|I]]]]; [elim (NW a A I)|elim (NS I)|elim (NW b B I)|destruct I as [I|[]]; discriminate I|elim (proj2 IH I)]. }
  destruct B as [B1 B2]. split; [exact B1|]. intros x y E. assert (T : ~ In 125 (tl body)) by (destruct body; [contradiction|intros I; apply B2; right; exact I]).
  change (removelast (lit "};")) with [125] in E.
  assert (Q : exists p q, tl body ++ [125] = p ++ 125 :: 59 :: q) by (exists x, y; exact E). clear E x y B1 B2 H. destruct Q as (p & q & E).
  assert (I59 : In 59 (tl body)).
  { assert (last (tl body ++ [125]) 0 = 125) as EL by apply last_last. rewrite E in EL. destruct q as [|q0 q]; [change (p ++ [125; 59]) with (p ++ [125] ++ [59]) in EL; rewrite app_assoc, last_last in EL; discriminate|].
    elim T. assert (In 125 (removelast (tl body ++ [125]))) as X by (rewrite E; rewrite removelast_app by discriminate; apply in_or_app; right; cbn; auto). rewrite removelast_last in X. exact X. }
  elim T. destruct q as [|q0 q].
  - change (p ++ [125; 59]) with (p ++ [125] ++ [59]) in E. rewrite app_assoc in E. apply app_inj_tail in E as [_ E]. discriminate.
  - assert (In 125 (removelast (tl body ++ [125]))) as X by (rewrite E; rewrite removelast_app by discriminate; apply in_or_app; right; cbn; auto). rewrite removelast_last in X. exact X.
Qed.
Lemma array_text s name zs l : cArray s name zs -> arrayToPython s (lit name) = Ok l -> exists body, listing body zs /\ l = arrayText (lit name) body.
Proof.
  intros (pre & dim & body & post & -> & F & D & FD & B) E. destruct (listing_nonempty body zs B) as [NE FB]. unfold arrayToPython in E. rewrite array_found in E by assumption. injection E as <-. eauto.
Qed.
Lemma scalar_text s name z l : cScalar s name z -> scalarToPython s (lit name) = Ok l -> exists v, numeral v z /\ l = lit name ++ lit " = " ++ v ++ [10].
Proof.
  intros (pre & v & post & -> & F & N & P) E. destruct (numeral_form v z N) as (c & w & -> & D & W). unfold scalarToPython in E.
  rewrite scalar_found in E; [injection E as <-; eauto|exact F|discriminate| |exact P].
  intros [->|I]; [discriminate D|]. rewrite forallb_forall in W. specialize (W _ I). discriminate W.
Qed.
Definition trieText (prefix : str) (v1 v2 v3 v4 v5 : str) : list str :=
  [prefix ++ lit "_index_length = " ++ v1; prefix ++ lit "_index_2_null_offset = " ++ v2; prefix ++ lit "_data_null_offset = " ++ v3; prefix ++ lit "_high_start = " ++ v4; prefix ++ lit "_high_value_index = " ++ v5; []].
Definition trieLinesOf (prefix : str) (t : trieNumbers) (l : list str) : Prop :=
  exists v1 v2 v3 v4 v5, numeral v1 (indexLength t) /\ numeral v2 (index2NullOffset t) /\ numeral v3 (dataNullOffset t) /\ numeral v4 (highStart t) /\ numeral v5 (highValueIndex t) /\
    l = trieText prefix v1 v2 v3 v4 v5.
Lemma fields_text fs t prefix l : cFields fs t -> trieValues (join (lit "," ++ [10]) fs) prefix = Ok l -> trieLinesOf prefix t l.
Proof.
  intros (LF & F & N1 & N2 & N3 & N4 & N5) E. rewrite C86_trie in E; [|destruct fs; [cbn in LF; lia|discriminate]|exact F].
  destruct (length fs <? 11)%nat eqn:Q; [apply Nat.ltb_lt in Q; lia|]. apply ok_inj in E as <-. do 5 eexists. do 5 (split; [eassumption|]). reflexivity.
Qed.
Lemma trie_text s name prefix t l : cTrie s name t -> trieValuesFromTrieDeclaration s (lit name) prefix = Ok l -> trieLinesOf prefix t l.
Proof.
  intros (pre & fs & post & -> & F & N & FB & C) E. unfold trieValuesFromTrieDeclaration in E. rewrite props_found in E by assumption. cbn [bind] in E. eapply fields_text; eassumption.
Qed.
Lemma propsTrie_text s name prefix t l : cPropsTrie s name t -> trieValuesFromPropsDeclaration s (lit name) prefix = Ok l -> trieLinesOf prefix t l.
Proof.
  intros (pre & a & fs & b & post & -> & F & FB & FA & N & FT & C) E. unfold trieValuesFromPropsDeclaration in E.
  rewrite props_found in E; [|exact F| |exact FB]; [|destruct a; discriminate]. cbn [bind] in E.
  rewrite (findFirst_at trieMatch (lit "{" ++ [10]) _ (join (lit "," ++ [10]) fs) a) in E.
  - cbn [bind] in E. eapply fields_text; eassumption.
  - discriminate.
  - intros s. unfold trieMatch. destruct (starts _ s); [reflexivity|congruence].
  - exact FA.
  - eexists. reflexivity.
  - unfold trieMatch. rewrite starts_app. change (skipn 2 ((lit "{" ++ [10]) ++ join (lit "," ++ [10]) fs ++ lit "}" ++ b)) with (join (lit "," ++ [10]) fs ++ lit "}" ++ b).
    destruct (join (lit "," ++ [10]) fs) as [|c r]; [contradiction|]. rewrite lazyGroup_first; [reflexivity|discriminate|exact FT].
Qed.

(** ** The text of a module *)
Section Text.
Variable mods : str -> option (dict pval).
Lemma reads_front tool o from date s l : plainText tool -> plainText o -> plainText from -> plainText date -> reads mods s l -> reads mods (frontText tool o from date ++ s) l.
Proof.
  intros P1 P2 P3 P4 R.
  assert (P : plainText (lit "/" ++ nl ++ o ++ lit ", based on " ++ from ++ lit " from ICU" ++ nl ++ nl ++ lit "Generated by " ++ tool ++ lit " on " ++ date ++ nl)).
  { unfold plainText in *. rewrite !Forall_app. repeat split; try assumption; vm_compute; repeat (constructor; [split; discriminate|]); constructor. }
  pose proof (reads_doc mods _ (10 :: s) l P (reads_nl mods s l R)) as H. unfold frontText, quotes, nl in *. rewrite <- !app_assoc in *. exact H.
Qed.
Lemma plain_check s : forallb (fun c => negb (c =? 34) && negb (c =? 92)) s = true -> plainText s.
Proof. intros H. rewrite forallb_forall in H. apply Forall_forall. intros c I. specialize (H c I). apply andb_prop in H as [A B]. split; intros ->; [discriminate A|discriminate B]. Qed.
Lemma ident_check s : match s with [] => false | c :: w => letter c && forallb wordChar w end && negb (keyword s) = true -> ident s.
Proof. intros H. apply andb_prop in H as [A B]. apply negb_true_iff in B. destruct s as [|c w]; [discriminate|]. apply andb_prop in A as [A1 A2]. split; [split; assumption|exact B]. Qed.
(** array and an empty line *)
Lemma reads_array_nl x body zs s l : ident x -> listing body zs -> reads mods s l -> reads mods (arrayText x body ++ nl ++ s) (SAssign x (EList (map EInt zs)) :: l).
Proof. intros I B R. apply reads_array; [exact I|exact B|]. apply reads_nl. exact R. Qed.
End Text.
Lemma eval_ints env zs : eval env (EList (map EInt zs)) = Ok (VList (map VInt zs)).
Proof.
  cbn [eval]. assert (H : (fix go (l : list expr) : res (list pval) := match l with [] => Ok [] | a :: r => let* v := eval env a in let* vs := go r in Ok (v :: vs) end) (map EInt zs) = Ok (map VInt zs)).
  { induction zs as [|z zs IH]; [reflexivity|]. cbn [map]. rewrite IH. reflexivity. } rewrite H. reflexivity.
Qed.
Lemma run_list env n zs r : run env (SAssign n (EList (map EInt zs)) :: r) = run (dict_set env n (VList (map VInt zs))) r.
Proof. cbn [run step]. rewrite eval_ints. reflexivity. Qed.
Lemma run_int env n z r : run env (SAssign n (EInt z) :: r) = run (dict_set env n (VInt z)) r.
Proof. reflexivity. Qed.

(** ** C101

    After a build, Python reads in the data modules exactly the numbers of the C source, of
    any length, in the order of the C source, under the same names; [mods] are the modules
    that could be imported.  The date must have no quotation mark or backslash. *)
Definition ints (l : list Z) : pval := VList (map VInt l).
Definition trieBindings (prefix : string) (t : trieNumbers) : dict pval :=
  [(lit (prefix ++ "_index_length"), VInt (indexLength t)); (lit (prefix ++ "_index_2_null_offset"), VInt (index2NullOffset t)); (lit (prefix ++ "_data_null_offset"), VInt (dataNullOffset t));
   (lit (prefix ++ "_high_start"), VInt (highStart t)); (lit (prefix ++ "_high_value_index"), VInt (highValueIndex t))].
Lemma textOf_fun cwd a f src s s' : textOf cwd a f src s -> textOf cwd a f src s' -> s = s'.
Proof. intros (c & A & ->) (c' & B & ->). congruence. Qed.
Ltac solve_ident := apply ident_check; vm_compute; reflexivity.
Ltac solve_plain := apply plain_check; vm_compute; reflexivity.

Theorem C101_bidi : forall mods cwd now pyeval a f g s indexes trieIndex mirrors jgArray jgArray2 t,
  built_ok cwd now pyeval a f g -> textOf cwd a f (lit "common/ubidi_props_data.h") s -> plainText (now (lit "BidiPropsData.py")) ->
  cArray s "ubidi_props_indexes" indexes -> cArray s "ubidi_props_trieIndex" trieIndex -> cArray s "ubidi_props_mirrors" mirrors ->
  cArray s "ubidi_props_jgArray" jgArray -> cArray s "ubidi_props_jgArray2" jgArray2 -> cPropsTrie s "ubidi_props_singleton" t ->
  exists text, lookup g (outDirOf cwd a ++ [lit "BidiPropsData.py"]) = Some text /\
    importText mods text = Ok ([(lit "ubidi_props_indexes", ints indexes); (lit "ubidi_props_trieIndex", ints trieIndex); (lit "ubidi_props_mirrors", ints mirrors);
      (lit "ubidi_props_jgArray", ints jgArray); (lit "ubidi_props_jgArray2", ints jgArray2)] ++ trieBindings "ubidi_props_trie" t).
Proof.
  intros mods cwd now pyeval a f g s z1 z2 z3 z4 z5 t B T D A1 A2 A3 A4 A5 A6.
  destruct (C99_bidi cwd now pyeval a f g B) as (s' & l1 & l2 & l3 & l4 & l5 & trie & T' & E1 & E2 & E3 & E4 & E5 & E6 & LK). rewrite <- (textOf_fun _ _ _ _ _ _ T T') in *. clear s' T'.
  destruct (array_text _ _ _ _ A1 E1) as (b1 & B1 & ->). destruct (array_text _ _ _ _ A2 E2) as (b2 & B2 & ->). destruct (array_text _ _ _ _ A3 E3) as (b3 & B3 & ->).
  destruct (array_text _ _ _ _ A4 E4) as (b4 & B4 & ->). destruct (array_text _ _ _ _ A5 E5) as (b5 & B5 & ->). destruct (propsTrie_text _ _ _ _ _ A6 E6) as (v1 & v2 & v3 & v4 & v5 & N1 & N2 & N3 & N4 & N5 & ->).
  eexists. split; [exact LK|]. unfold importText.
  rewrite (reads_parse mods _ [SAssign (lit "ubidi_props_indexes") (EList (map EInt z1)); SAssign (lit "ubidi_props_trieIndex") (EList (map EInt z2)); SAssign (lit "ubidi_props_mirrors") (EList (map EInt z3));
    SAssign (lit "ubidi_props_jgArray") (EList (map EInt z4)); SAssign (lit "ubidi_props_jgArray2") (EList (map EInt z5)); SAssign (lit "ubidi_props_trie_index_length") (EInt (indexLength t));
    SAssign (lit "ubidi_props_trie_index_2_null_offset") (EInt (index2NullOffset t)); SAssign (lit "ubidi_props_trie_data_null_offset") (EInt (dataNullOffset t));
    SAssign (lit "ubidi_props_trie_high_start") (EInt (highStart t)); SAssign (lit "ubidi_props_trie_high_value_index") (EInt (highValueIndex t))]).
  - unfold exec. rewrite !run_list, !run_int. reflexivity.
  - apply reads_front; try solve_plain; [exact D|]. unfold trieText. cbn [app linesText].
    do 5 (apply reads_array_nl; [solve_ident|assumption|]).
    rewrite <- !app_assoc.
    apply (reads_int mods (lit "ubidi_props_trie_index_length") v1); [solve_ident|exact N1|].
    apply (reads_int mods (lit "ubidi_props_trie_index_2_null_offset") v2); [solve_ident|exact N2|].
    apply (reads_int mods (lit "ubidi_props_trie_data_null_offset") v3); [solve_ident|exact N3|].
    apply (reads_int mods (lit "ubidi_props_trie_high_start") v4); [solve_ident|exact N4|].
    apply (reads_int mods (lit "ubidi_props_trie_high_value_index") v5); [solve_ident|exact N5|]. apply reads_nil.
Qed.
Print Assumptions C101_bidi.
Theorem C101_caseProps : forall mods cwd now pyeval a f g s indexes trieIndex exceptions unfold t,
  built_ok cwd now pyeval a f g -> textOf cwd a f (lit "common/ucase_props_data.h") s -> plainText (now (lit "CasePropsData.py")) ->
  cArray s "ucase_props_indexes" indexes -> cArray s "ucase_props_trieIndex" trieIndex -> cArray s "ucase_props_exceptions" exceptions ->
  cArray s "ucase_props_unfold" unfold -> cPropsTrie s "ucase_props_singleton" t ->
  exists text, lookup g (outDirOf cwd a ++ [lit "CasePropsData.py"]) = Some text /\
    importText mods text = Ok ([(lit "ucase_props_indexes", ints indexes); (lit "ucase_props_trieIndex", ints trieIndex); (lit "ucase_props_exceptions", ints exceptions);
      (lit "ucase_props_unfold", ints unfold)] ++ trieBindings "ucase_props_trie" t).
Proof.
  intros mods cwd now pyeval a f g s z1 z2 z3 z4 t B T D A1 A2 A3 A4 A6.
  destruct (C99_caseProps cwd now pyeval a f g B) as (s' & l1 & l2 & l3 & l4 & trie & T' & E1 & E2 & E3 & E4 & E6 & LK). rewrite <- (textOf_fun _ _ _ _ _ _ T T') in *. clear s' T'.
  destruct (array_text _ _ _ _ A1 E1) as (b1 & B1 & ->). destruct (array_text _ _ _ _ A2 E2) as (b2 & B2 & ->). destruct (array_text _ _ _ _ A3 E3) as (b3 & B3 & ->).
  destruct (array_text _ _ _ _ A4 E4) as (b4 & B4 & ->). destruct (propsTrie_text _ _ _ _ _ A6 E6) as (v1 & v2 & v3 & v4 & v5 & N1 & N2 & N3 & N4 & N5 & ->).
  eexists. split; [exact LK|]. unfold importText.
  rewrite (reads_parse mods _ [SAssign (lit "ucase_props_indexes") (EList (map EInt z1)); SAssign (lit "ucase_props_trieIndex") (EList (map EInt z2)); SAssign (lit "ucase_props_exceptions") (EList (map EInt z3));
    SAssign (lit "ucase_props_unfold") (EList (map EInt z4)); SAssign (lit "ucase_props_trie_index_length") (EInt (indexLength t));
    SAssign (lit "ucase_props_trie_index_2_null_offset") (EInt (index2NullOffset t)); SAssign (lit "ucase_props_trie_data_null_offset") (EInt (dataNullOffset t));
    SAssign (lit "ucase_props_trie_high_start") (EInt (highStart t)); SAssign (lit "ucase_props_trie_high_value_index") (EInt (highValueIndex t))]).
  - unfold exec. rewrite !run_list, !run_int. reflexivity.
  - apply reads_front; try solve_plain; [exact D|]. unfold trieText. cbn [app linesText].
    do 4 (apply reads_array_nl; [solve_ident|assumption|]). rewrite <- !app_assoc.
    apply (reads_int mods (lit "ucase_props_trie_index_length") v1); [solve_ident|exact N1|].
    apply (reads_int mods (lit "ucase_props_trie_index_2_null_offset") v2); [solve_ident|exact N2|].
    apply (reads_int mods (lit "ucase_props_trie_data_null_offset") v3); [solve_ident|exact N3|].
    apply (reads_int mods (lit "ucase_props_trie_high_start") v4); [solve_ident|exact N4|].
    apply (reads_int mods (lit "ucase_props_trie_high_value_index") v5); [solve_ident|exact N5|]. apply reads_nil.
Qed.
Print Assumptions C101_caseProps.
Theorem C101_charProps : forall mods cwd now pyeval a f g s index t vectorsIndex u vectors columns extensions,
  built_ok cwd now pyeval a f g -> textOf cwd a f (lit "common/uchar_props_data.h") s -> plainText (now (lit "CharPropsData.py")) ->
  cArray s "propsTrie_index" index -> cTrie s "propsTrie" t -> cArray s "propsVectorsTrie_index" vectorsIndex -> cTrie s "propsVectorsTrie" u ->
  cArray s "propsVectors" vectors -> cScalar s "propsVectorsColumns" columns -> cArray s "scriptExtensions" extensions ->
  exists text, lookup g (outDirOf cwd a ++ [lit "CharPropsData.py"]) = Some text /\
    importText mods text = Ok ([(lit "propsTrie_index", ints index)] ++ trieBindings "propsTrie" t ++ [(lit "propsVectorsTrie_index", ints vectorsIndex)] ++ trieBindings "propsVectorsTrie" u ++
      [(lit "propsVectors", ints vectors); (lit "propsVectorsColumns", VInt columns); (lit "scriptExtensions", ints extensions)]).
Proof.
  intros mods cwd now pyeval a f g s z1 t z2 u z3 n z4 B T D A1 A2 A3 A4 A5 A6 A7.
  destruct (C99_char cwd now pyeval a f g B) as (s' & l1 & t1 & l2 & t2 & l3 & l4 & l5 & T' & E1 & E2 & E3 & E4 & E5 & E6 & E7 & LK). rewrite <- (textOf_fun _ _ _ _ _ _ T T') in *. clear s' T'.
  destruct (array_text _ _ _ _ A1 E1) as (b1 & B1 & ->). destruct (trie_text _ _ _ _ _ A2 E2) as (v1 & v2 & v3 & v4 & v5 & N1 & N2 & N3 & N4 & N5 & ->).
  destruct (array_text _ _ _ _ A3 E3) as (b2 & B2 & ->). destruct (trie_text _ _ _ _ _ A4 E4) as (w1 & w2 & w3 & w4 & w5 & M1 & M2 & M3 & M4 & M5 & ->).
  destruct (array_text _ _ _ _ A5 E5) as (b3 & B3 & ->). destruct (scalar_text _ _ _ _ A6 E6) as (v & N & ->). destruct (array_text _ _ _ _ A7 E7) as (b4 & B4 & ->).
  eexists. split; [exact LK|]. unfold importText.
  rewrite (reads_parse mods _ [SAssign (lit "propsTrie_index") (EList (map EInt z1)); SAssign (lit "propsTrie_index_length") (EInt (indexLength t));
    SAssign (lit "propsTrie_index_2_null_offset") (EInt (index2NullOffset t)); SAssign (lit "propsTrie_data_null_offset") (EInt (dataNullOffset t));
    SAssign (lit "propsTrie_high_start") (EInt (highStart t)); SAssign (lit "propsTrie_high_value_index") (EInt (highValueIndex t));
    SAssign (lit "propsVectorsTrie_index") (EList (map EInt z2)); SAssign (lit "propsVectorsTrie_index_length") (EInt (indexLength u));
    SAssign (lit "propsVectorsTrie_index_2_null_offset") (EInt (index2NullOffset u)); SAssign (lit "propsVectorsTrie_data_null_offset") (EInt (dataNullOffset u));
    SAssign (lit "propsVectorsTrie_high_start") (EInt (highStart u)); SAssign (lit "propsVectorsTrie_high_value_index") (EInt (highValueIndex u));
    SAssign (lit "propsVectors") (EList (map EInt z3)); SAssign (lit "propsVectorsColumns") (EInt n); SAssign (lit "scriptExtensions") (EList (map EInt z4))]).
  - unfold exec. rewrite run_list, !run_int, run_list, !run_int, run_list, run_int, run_list. reflexivity.
  - apply reads_front; try solve_plain; [exact D|]. unfold trieText. cbn [app linesText].
    apply reads_array_nl; [solve_ident|exact B1|]. rewrite <- !app_assoc.
    apply (reads_int mods (lit "propsTrie_index_length") v1); [solve_ident|exact N1|].
    apply (reads_int mods (lit "propsTrie_index_2_null_offset") v2); [solve_ident|exact N2|].
    apply (reads_int mods (lit "propsTrie_data_null_offset") v3); [solve_ident|exact N3|].
    apply (reads_int mods (lit "propsTrie_high_start") v4); [solve_ident|exact N4|].
    apply (reads_int mods (lit "propsTrie_high_value_index") v5); [solve_ident|exact N5|]. apply reads_nl.
    apply reads_array_nl; [solve_ident|exact B2|].
    apply (reads_int mods (lit "propsVectorsTrie_index_length") w1); [solve_ident|exact M1|].
    apply (reads_int mods (lit "propsVectorsTrie_index_2_null_offset") w2); [solve_ident|exact M2|].
    apply (reads_int mods (lit "propsVectorsTrie_data_null_offset") w3); [solve_ident|exact M3|].
    apply (reads_int mods (lit "propsVectorsTrie_high_start") w4); [solve_ident|exact M4|].
    apply (reads_int mods (lit "propsVectorsTrie_high_value_index") w5); [solve_ident|exact M5|]. apply reads_nl.
    apply reads_array_nl; [solve_ident|exact B3|].
    apply (reads_int mods (lit "propsVectorsColumns") v); [solve_ident|exact N|]. apply reads_nl.
    rewrite <- (app_nil_r (arrayText (lit "scriptExtensions") b4)). apply reads_array; [solve_ident|exact B4|apply reads_nil].
Qed.
Print Assumptions C101_charProps.
(** UnicodeVersion.py *)
Lemma L_string d b s r : Forall (fun c => c <> 34 /\ c <> 92 /\ c <> 10) s -> s <> [] -> L d b (34 :: s ++ 34 :: r) = ocons (TStr s) (L d false r).
Proof.
  intros P N. destruct s as [|c s]; [contradiction|]. inversion P as [|? ? (A & A' & A'') P']; subst.
  assert (SP : span (fun x => negb ((x =? 34) || (x =? 92) || (x =? 10))) ((c :: s) ++ 34 :: r) = (c :: s, 34 :: r)).
  { apply span_intro; [|reflexivity]. apply forallb_forall. intros x I. rewrite Forall_forall in P. specialize (P x I). lia. }
  assert (E : forall n, lexF (S n) d b (34 :: (c :: s) ++ 34 :: r) = ocons (TStr (c :: s)) (lexF n d false r)).
  { intros n. cbn [app] in SP. cbn [app lexF]. rewrite SP. assert (starts [34; 34; 34] (34 :: c :: s ++ 34 :: r) = false) as ->; [|reflexivity].
    cbn [starts]. change (34 =? 34) with true. cbv iota. destruct (34 =? c) eqn:Q; [apply Z.eqb_eq in Q; congruence|reflexivity]. }
  unfold L at 1. cbn [length]. rewrite E. f_equal. apply L_eq. rewrite app_length. cbn. lia.
Qed.
Theorem C101_version : forall mods cwd now pyeval a f g v,
  built_ok cwd now pyeval a f g ->
  (forall s rows, lookup f (resolve cwd (joinPath (parsePath (icuSourceDir a)) (lit "data/unidata/ppucd.txt"))) = Some s -> CsvReader.csvRows s = Ok rows -> Forall row_ok rows /\ lastVersion rows = Some v) ->
  v <> [] -> Forall (fun c => c <> 34 /\ c <> 92 /\ c <> 10) v ->
  exists text, lookup g (outDirOf cwd a ++ [lit "UnicodeVersion.py"]) = Some text /\ importText mods text = Ok [(lit "unicodeVersion", VStr v)].
Proof.
  intros mods cwd now pyeval a f g v B H N P. destruct (C99_dictionaries cwd now pyeval a f g B) as (s & rows & LK & C & K). destruct (H s rows LK C) as [R LV]. destruct (K R) as [_ K2]. rewrite LV in K2.
  eexists. split; [exact K2|]. unfold importText. rewrite (reads_parse mods _ [SAssign (lit "unicodeVersion") (EStr v)]); [reflexivity|].
  exists (TName (lit "unicodeVersion") :: TOp 61 :: [TStr v] ++ TNl :: []). split; [|apply assign_step; reflexivity].
  change (L 0 true (lit "unicodeVersion" ++ (32 :: 61 :: 32 :: 34 :: v ++ 34 :: [10])) = Some (TName (lit "unicodeVersion") :: TOp 61 :: [TStr v] ++ [TNl])).
  rewrite (L_ident _ _ (lit "unicodeVersion")) by first [solve_ident|reflexivity]. rewrite L_space, L_equals, L_space, L_string by assumption. reflexivity.
Qed.
Print Assumptions C101_version.

(** Octal numerals and numerals with a suffix are valid in C; the module built from them is not valid Python. *)
Theorem C101_numerals_refuted : exists s t text text', arrayToPython s (lit "ab") = Ok text /\ arrayToPython t (lit "ab") = Ok text' /\
  s = lit "int ab[2]={010,2};" /\ t = lit "int ab[2]={10U,2};" /\ forall mods, importText mods text = Err SyntaxError /\ importText mods text' = Err SyntaxError.
Proof.
  exists (lit "int ab[2]={010,2};"), (lit "int ab[2]={10U,2};"). do 2 eexists. split; [vm_compute; reflexivity|]. split; [vm_compute; reflexivity|]. split; [reflexivity|]. split; [reflexivity|]. intros mods. split; vm_compute; reflexivity.
Qed.
Print Assumptions C101_numerals_refuted.

(** the source tree of C95 *)
Lemma one_two_three : listing (lit "1,2,3") [1; 2; 3].
Proof.
  assert (D : forall c, 49 <= c <= 57 -> numeral [c] (c - 48)).
  { intros c H. apply (num_dec [c]). split; [discriminate|]. split; [constructor; [lia|constructor]|]. cbn. lia. }
  apply (list_more [] [49] 1 [] (lit "2,3") [2; 3]); [constructor|apply (D 49); lia|constructor|].
  apply (list_more [] [50] 2 [] (lit "3") [3]); [constructor|apply (D 50); lia|constructor|].
  apply (list_one [] [51] 3 []); [constructor|apply (D 51); lia|constructor].
Qed.
Ltac solve_first := apply absent_check; [discriminate|vm_compute; reflexivity].
Ltac solve_arr p q := exists p, (lit "3"), (lit "1,2,3"), q; split; [vm_compute; reflexivity|]; split; [solve_first|]; split; [discriminate|]; split; [solve_first|exact one_two_three].
Definition fields1 : list str := map lit ["a"; "b"; "c"; "123"; "d"; "0x4"; "0x5"; "e"; "f"; "0x110000"; "0x20"] ++ [lit "NULL, 0" ++ [10] ++ lit "  "].
Definition numbers1 : trieNumbers := {| indexLength := 123; index2NullOffset := 4; dataNullOffset := 5; highStart := 0x110000; highValueIndex := 32 |}.
Lemma fields1_ok : cFields fields1 numbers1.
Proof.
  split; [vm_compute; lia|]. split; [unfold fields1; cbn [map app]; repeat (constructor; [solve_first|]); constructor|].
  assert (HV : forall s vs, s <> [] -> Forall2 hexDigit s vs -> numeral (48 :: 120 :: s) (value 16 vs)) by (intros; apply num_hex; auto).
  assert (trim (field fields1 "indexLength") = [49; 50; 51]) as -> by (vm_compute; reflexivity).
  assert (trim (field fields1 "index2NullOffset") = [48; 120; 52]) as -> by (vm_compute; reflexivity).
  assert (trim (field fields1 "dataNullOffset") = [48; 120; 53]) as -> by (vm_compute; reflexivity).
  assert (trim (field fields1 "highStart") = [48; 120; 49; 49; 48; 48; 48; 48]) as -> by (vm_compute; reflexivity).
  assert (trim (field fields1 "highValueIndex") = [48; 120; 50; 48]) as -> by (vm_compute; reflexivity).
  split; [apply (num_dec [49; 50; 51]); split; [discriminate|]; split; [repeat (constructor; [lia|]); constructor|discriminate]|].
  split; [apply (HV [52] [4])|split; [apply (HV [53] [5])|split; [apply (HV [49; 49; 48; 48; 48; 48] [1; 1; 0; 0; 0; 0])|apply (HV [50; 48] [2; 0])]]];
    try discriminate; repeat (constructor; [left; lia|]); constructor.
Qed.
Example C101_case : built_ok work someDay evalName args1 tree1 tree2 /\ textOf work args1 tree1 (lit "common/ubidi_props_data.h") bidiText /\ plainText (someDay (lit "BidiPropsData.py")) /\
  cArray bidiText "ubidi_props_indexes" [1; 2; 3] /\ cPropsTrie bidiText "ubidi_props_singleton" numbers1 /\
  exists text, lookup tree2 (outDirOf work args1 ++ [lit "BidiPropsData.py"]) = Some text /\
    match importText (fun _ => None) text with Ok env => dict_find env (lit "ubidi_props_jgArray2") = Some (ints [1; 2; 3]) /\ dict_find env (lit "ubidi_props_trie_high_start") = Some (VInt 0x110000) | Err _ => False end.
Proof.
  split; [exact (proj1 C99_case)|]. split; [eexists; split; vm_compute; reflexivity|]. split; [solve_plain|]. split.
  { let q := eval vm_compute in (skipn (length (lit "static const uint16_t ubidi_props_indexes[3]={1,2,3};")) bidiText) in solve_arr (lit "static const uint16_t ") q. }
  split; [|exists (match lookup tree2 (outDirOf work args1 ++ [lit "BidiPropsData.py"]) with Some t => t | None => [] end); split; [vm_compute; reflexivity|vm_compute; auto]].
  let pre := eval vm_compute in (firstn (length (arr "ubidi_props_indexes" ++ arr "ubidi_props_trieIndex" ++ arr "ubidi_props_mirrors" ++ arr "ubidi_props_jgArray" ++ arr "ubidi_props_jgArray2" ++ lit "static const UBiDiProps ")) bidiText) in
  exists pre, (lit "  NULL," ++ [10] ++ lit "  "), fields1, (lit "," ++ [10] ++ lit "  0"), [10].
  cbv zeta. split; [vm_compute; reflexivity|]. split; [solve_first|]. split; [solve_first|]. split; [solve_first|]. split; [discriminate|]. split; [solve_first|]. exact fields1_ok.
Qed.
