(** * Property C99: the contents of the modules that [build] writes *)
From Coq Require Import ZArith List Bool Lia String.
From Verif Require Import Py Dict PyStr Utilities CharNames PyText ModuleBuilder HeaderFile HeaderFacts BuilderArgs CsvReader UCDFacts Build BuildFacts BuildRun BuilderFacts Prop_Build Prop_Builder.
Import ListNotations.
Open Scope string_scope.
Open Scope list_scope.
Open Scope Z_scope.
Local Notation length := List.length.
Local Notation concat := List.concat.

Definition nl : str := [10].
Definition quotes : str := [34; 34; 34].
(** the comment at the front of each module *)
Definition frontText (tool outName fromName date : str) : str :=
  quotes ++ lit "/" ++ nl ++ outName ++ lit ", based on " ++ fromName ++ lit " from ICU" ++ nl ++ nl ++ lit "Generated by " ++ tool ++ lit " on " ++ date ++ nl ++ quotes ++ nl ++ nl.
(** lines, with an end of line between each two *)
Fixpoint linesText (l : list str) : str := match l with [] => [] | [x] => x | x :: r => x ++ nl ++ linesText r end.

Lemma lines_join l : join [10] l = linesText l.
Proof. induction l as [|x [|y r] IH]; [reflexivity|reflexivity|]. cbn [join linesText] in *. rewrite IH. reflexivity. Qed.
Lemma front_lines now tool o from l : l <> [] -> join [10] (heading now tool o from ++ l) = frontText tool o from (now o) ++ linesText l.
Proof.
  intros N. destruct l as [|x l]; [contradiction|]. rewrite lines_join. unfold heading, frontText, nl, quotes.
  cbn [app linesText]. rewrite <- !app_assoc. cbn [app]. rewrite <- ?app_assoc. cbn [app]. rewrite <- ?app_assoc. cbn [app]. unfold nl. rewrite <- ?app_assoc. cbn [app]. reflexivity.
Qed.
Lemma ok_inj {A} (x y : A) : Ok x = Ok y -> x = y.
Proof. intros [= ->]. reflexivity. Qed.
Lemma bind_ok {A B} (x : res A) (k : A -> res B) y : bind x k = Ok y -> exists a, x = Ok a /\ k a = Ok y.
Proof. destruct x; cbn; [eauto|discriminate]. Qed.
Lemma name_child icu src q n : parsePath src = q ++ [n] -> pathName (joinPath icu src) = n.
Proof. intros E. unfold pathName, joinPath. rewrite E, app_assoc. apply last_snoc. Qed.

(** Where the texts come from: the C file named, with its ends of lines translated. *)
Definition textOf (cwd : path) (a : args) (f : fs) (src : str) (s : str) : Prop :=
  exists c, lookup f (resolve cwd (joinPath (parsePath (icuSourceDir a)) src)) = Some c /\ s = universal c.
Lemma getText_ok cwd a f src s : getText cwd (lookup f) (joinPath (parsePath (icuSourceDir a)) src) = Ok s -> textOf cwd a f src s.
Proof.
  unfold getText, getRaw, textOf. destruct (lookup f _) as [c|]; cbn [bind]; [|discriminate]. intros [= <-]. eauto.
Qed.

(** the hypotheses of C95 and a build that succeeds *)
Definition built_ok (cwd : path) (now : str -> str) (pyeval : str -> dict Z -> res Z) (a : args) (f g : fs) : Prop :=
  throughFile f (outDirOf cwd a) = false /\ (forall n, In n outputs -> isDir f (outDirOf cwd a ++ [n]) = false) /\
  resolve cwd (parent (parsePath (icuSourceDir a)) ++ [lit "LICENSE"]) <> outDirOf cwd a ++ [lit "LICENSE"] /\
  exists v, build cwd now pyeval a f = (Ok v, g).
Lemma built_item cwd now pyeval a f g n i : built_ok cwd now pyeval a f g -> In (n, i) (plan cwd now pyeval a) ->
  exists c, i (lookup f) = Ok c /\ lookup g (outDirOf cwd a ++ [n]) = Some c.
Proof.
  intros (T & D & L & v & B) I. destruct (C95_plan cwd now pyeval a f (Ok v) g T D L B) as (done & rest & E & F & _ & -> & _).
  rewrite app_nil_r in E. rewrite E in I. exact (F n i I).
Qed.

(** ** C99

    The data modules: the front comment, then the declarations, one after the other. *)
Theorem C99_bidi : forall cwd now pyeval a f g, built_ok cwd now pyeval a f g ->
  exists s l1 l2 l3 l4 l5 trie, textOf cwd a f (lit "common/ubidi_props_data.h") s /\
    arrayToPython s (lit "ubidi_props_indexes") = Ok l1 /\ arrayToPython s (lit "ubidi_props_trieIndex") = Ok l2 /\
    arrayToPython s (lit "ubidi_props_mirrors") = Ok l3 /\ arrayToPython s (lit "ubidi_props_jgArray") = Ok l4 /\
    arrayToPython s (lit "ubidi_props_jgArray2") = Ok l5 /\
    trieValuesFromPropsDeclaration s (lit "ubidi_props_singleton") (lit "ubidi_props_trie") = Ok trie /\
    lookup g (outDirOf cwd a ++ [lit "BidiPropsData.py"]) =
      Some (frontText (lit "ModuleBuilder.py") (lit "BidiPropsData.py") (lit "ubidi_props_data.h") (now (lit "BidiPropsData.py")) ++
            linesText ([l1; l2; l3; l4; l5] ++ trie)).
Proof.
  intros cwd now pyeval a f g H. destruct (built_item cwd now pyeval a f g _ _ H ltac:(left; reflexivity)) as (c & I & L). rewrite L. clear L.
  unfold moduleItem in I. apply bind_ok in I as (s & G & I). apply bind_ok in I as (ls & P & I). apply ok_inj in I as <-.
  unfold bidiParts in P. cbn [partsLines partLines] in P.
  apply bind_ok in P as (p1 & P1 & P). apply bind_ok in P1 as (l1 & A1 & [= <-]). apply bind_ok in P as (q1 & P & [= <-]).
  apply bind_ok in P as (p2 & P2 & P). apply bind_ok in P2 as (l2 & A2 & [= <-]). apply bind_ok in P as (q2 & P & [= <-]).
  apply bind_ok in P as (p3 & P3 & P). apply bind_ok in P3 as (l3 & A3 & [= <-]). apply bind_ok in P as (q3 & P & [= <-]).
  apply bind_ok in P as (p4 & P4 & P). apply bind_ok in P4 as (l4 & A4 & [= <-]). apply bind_ok in P as (q4 & P & [= <-]).
  apply bind_ok in P as (p5 & P5 & P). apply bind_ok in P5 as (l5 & A5 & [= <-]). apply bind_ok in P as (q5 & P & [= <-]).
  apply bind_ok in P as (t & P6 & P). cbn [bind] in P. injection P as <-. rewrite app_nil_r.
  exists s, l1, l2, l3, l4, l5, t. split; [apply getText_ok; exact G|]. do 6 (split; [assumption|]).
  rewrite (name_child _ (lit "common/ubidi_props_data.h") [lit "common"] (lit "ubidi_props_data.h") eq_refl), front_lines by discriminate. reflexivity.
Qed.
Print Assumptions C99_bidi.
Theorem C99_caseProps : forall cwd now pyeval a f g, built_ok cwd now pyeval a f g ->
  exists s l1 l2 l3 l4 trie, textOf cwd a f (lit "common/ucase_props_data.h") s /\
    arrayToPython s (lit "ucase_props_indexes") = Ok l1 /\ arrayToPython s (lit "ucase_props_trieIndex") = Ok l2 /\
    arrayToPython s (lit "ucase_props_exceptions") = Ok l3 /\ arrayToPython s (lit "ucase_props_unfold") = Ok l4 /\
    trieValuesFromPropsDeclaration s (lit "ucase_props_singleton") (lit "ucase_props_trie") = Ok trie /\
    lookup g (outDirOf cwd a ++ [lit "CasePropsData.py"]) =
      Some (frontText (lit "ModuleBuilder.py") (lit "CasePropsData.py") (lit "ucase_props_data.h") (now (lit "CasePropsData.py")) ++
            linesText ([l1; l2; l3; l4] ++ trie)).
Proof.
  intros cwd now pyeval a f g H. destruct (built_item cwd now pyeval a f g _ _ H ltac:(right; right; left; reflexivity)) as (c & I & L). rewrite L. clear L.
  unfold moduleItem in I. apply bind_ok in I as (s & G & I). apply bind_ok in I as (ls & P & I). apply ok_inj in I as <-.
  unfold caseParts in P. cbn [partsLines partLines] in P.
  apply bind_ok in P as (p1 & P1 & P). apply bind_ok in P1 as (l1 & A1 & [= <-]). apply bind_ok in P as (q1 & P & [= <-]).
  apply bind_ok in P as (p2 & P2 & P). apply bind_ok in P2 as (l2 & A2 & [= <-]). apply bind_ok in P as (q2 & P & [= <-]).
  apply bind_ok in P as (p3 & P3 & P). apply bind_ok in P3 as (l3 & A3 & [= <-]). apply bind_ok in P as (q3 & P & [= <-]).
  apply bind_ok in P as (p4 & P4 & P). apply bind_ok in P4 as (l4 & A4 & [= <-]). apply bind_ok in P as (q4 & P & [= <-]).
  apply bind_ok in P as (t & P6 & P). cbn [bind] in P. injection P as <-. rewrite app_nil_r.
  exists s, l1, l2, l3, l4, t. split; [apply getText_ok; exact G|]. do 5 (split; [assumption|]).
  rewrite (name_child _ (lit "common/ucase_props_data.h") [lit "common"] (lit "ucase_props_data.h") eq_refl), front_lines by discriminate. reflexivity.
Qed.
Print Assumptions C99_caseProps.
Theorem C99_char : forall cwd now pyeval a f g, built_ok cwd now pyeval a f g ->
  exists s l1 t1 l2 t2 l3 l4 l5, textOf cwd a f (lit "common/uchar_props_data.h") s /\
    arrayToPython s (lit "propsTrie_index") = Ok l1 /\ trieValuesFromTrieDeclaration s (lit "propsTrie") (lit "propsTrie") = Ok t1 /\
    arrayToPython s (lit "propsVectorsTrie_index") = Ok l2 /\ trieValuesFromTrieDeclaration s (lit "propsVectorsTrie") (lit "propsVectorsTrie") = Ok t2 /\
    arrayToPython s (lit "propsVectors") = Ok l3 /\ scalarToPython s (lit "propsVectorsColumns") = Ok l4 /\
    arrayToPython s (lit "scriptExtensions") = Ok l5 /\
    lookup g (outDirOf cwd a ++ [lit "CharPropsData.py"]) =
      Some (frontText (lit "ModuleBuilder.py") (lit "CharPropsData.py") (lit "uchar_props_data.h") (now (lit "CharPropsData.py")) ++
            linesText ([l1] ++ t1 ++ [l2] ++ t2 ++ [l3; l4; l5])).
Proof.
  intros cwd now pyeval a f g H. destruct (built_item cwd now pyeval a f g _ _ H ltac:(right; left; reflexivity)) as (c & I & L). rewrite L. clear L.
  unfold moduleItem in I. apply bind_ok in I as (s & G & I). apply bind_ok in I as (ls & P & I). apply ok_inj in I as <-.
  unfold charParts in P. cbn [partsLines partLines] in P.
  apply bind_ok in P as (p1 & P1 & P). apply bind_ok in P1 as (l1 & A1 & [= <-]). apply bind_ok in P as (q1 & P & [= <-]).
  apply bind_ok in P as (t1 & T1 & P). apply bind_ok in P as (q2 & P & [= <-]).
  apply bind_ok in P as (p3 & P3 & P). apply bind_ok in P3 as (l2 & A2 & [= <-]). apply bind_ok in P as (q3 & P & [= <-]).
  apply bind_ok in P as (t2 & T2 & P). apply bind_ok in P as (q4 & P & [= <-]).
  apply bind_ok in P as (p5 & P5 & P). apply bind_ok in P5 as (l3 & A3 & [= <-]). apply bind_ok in P as (q5 & P & [= <-]).
  apply bind_ok in P as (p6 & P6 & P). apply bind_ok in P6 as (l4 & A4 & [= <-]). apply bind_ok in P as (q6 & P & [= <-]).
  apply bind_ok in P as (p7 & P7 & P). apply bind_ok in P7 as (l5 & A5 & [= <-]). cbn [bind] in P. injection P as <-.
  exists s, l1, t1, l2, t2, l3, l4, l5. split; [apply getText_ok; exact G|]. do 7 (split; [assumption|]).
  rewrite (name_child _ (lit "common/uchar_props_data.h") [lit "common"] (lit "uchar_props_data.h") eq_refl), front_lines by discriminate. reflexivity.
Qed.
Print Assumptions C99_char.

(** The lines of a text: each ends with its only end of line; the last may have none. *)
Definition linesOf (s : str) (lines : list str) : Prop :=
  exists bodies last, s = concat (map (fun b => b ++ nl) bodies) ++ last /\ Forall (fun b => ~ In 10 b) bodies /\ ~ In 10 last /\
    lines = map (fun b => b ++ nl) bodies ++ match last with [] => [] | _ => [last] end.
Lemma linesAfter_body b s cur : ~ In 10 b -> linesAfter (b ++ s) cur = linesAfter s (cur ++ b).
Proof.
  revert cur. induction b as [|c b IH]; intros cur N; [rewrite app_nil_r; reflexivity|]. cbn [app linesAfter]. destruct (c =? 10) eqn:E; [apply Z.eqb_eq in E; elim N; left; exact E|].
  rewrite IH by (intros I; apply N; right; exact I). rewrite <- app_assoc. reflexivity.
Qed.
Theorem C99_lines : forall s lines, textLines s = lines <-> linesOf s lines.
Proof.
  assert (H : forall s lines, linesOf s lines -> textLines s = lines).
  { intros s lines (bodies & last & -> & F & N & ->). unfold textLines. induction F as [|b bodies B F IH]; cbn [map concat app].
    - rewrite <- (app_nil_r last) at 1. rewrite linesAfter_body by exact N. cbn [app linesAfter]. destruct last; reflexivity.
    - rewrite <- !app_assoc. rewrite linesAfter_body by exact B. cbn [app nl linesAfter]. change (10 =? 10) with true. cbv iota. f_equal. exact IH. }
  assert (E : forall n s, (length s <= n)%nat -> exists lines, linesOf s lines).
  { induction n as [|n IH]; intros s LE; [destruct s; [|cbn in LE; lia]; exists [], [], []; repeat split; [constructor|intros []]|].
    destruct (in_dec Z.eq_dec 10 s) as [I|I]; [|eexists; exists [], s; split; [reflexivity|]; split; [constructor|]; split; [exact I|reflexivity]].
    assert (X : exists b r, s = b ++ 10 :: r /\ ~ In 10 b).
    { clear - I. induction s as [|c s IH]; [destruct I|]. destruct (Z.eq_dec c 10) as [->|NE]; [exists [], s; split; [reflexivity|intros []]|].
      destruct IH as (b & r & -> & N); [destruct I as [I|I]; [congruence|exact I]|]. exists (c :: b), r. split; [reflexivity|]. intros [Q|Q]; [congruence|exact (N Q)]. }
    destruct X as (b & r & -> & N). destruct (IH r) as (lines & bodies & last & -> & F & NL & ->); [rewrite app_length in LE; cbn in LE; lia|].
    eexists. exists (b :: bodies), last. split; [cbn [map concat]; unfold nl; rewrite <- !app_assoc; reflexivity|]. split; [constructor; assumption|]. split; [exact NL|reflexivity]. }
  intros s lines. split; [|apply H]. intros <-. destruct (E (length s) s (le_n _)) as (lines & L). rewrite (H _ _ L). exact L.
Qed.
Print Assumptions C99_lines.
(** The header modules: the translation of C82 to C84 of the lines of the header. *)
Definition headerText (now : str -> str) (pyeval : str -> dict Z -> res Z) (s out from guard : str) (extra ignore : list str) (text : str) : Prop :=
  exists source lines, linesOf s source /\ translate guard pyeval ignore source = Ok lines /\
    text = (if match extra ++ lines with [] => true | _ => false end
            then removelast (frontText (lit "HeaderToPtyhon.py") out from (now out))
            else frontText (lit "HeaderToPtyhon.py") out from (now out) ++ linesText (extra ++ lines)).
Lemma header_item cwd now pyeval a f src guard out from extra ignore c q : parsePath src = q ++ [from] ->
  headerItem cwd now pyeval a src guard out extra ignore (lookup f) = Ok c ->
  exists s, textOf cwd a f src s /\ headerText now pyeval s out from guard extra ignore c.
Proof.
  intros E I. unfold headerItem in I. apply bind_ok in I as (s & G & I). apply bind_ok in I as (ls & P & I). apply ok_inj in I as <-.
  exists s. split; [apply getText_ok; exact G|]. exists (textLines s), ls. split; [apply C99_lines; reflexivity|]. split; [exact P|]. rewrite (name_child _ _ q from E).
  destruct (extra ++ ls) as [|x r] eqn:Q; [|apply front_lines; discriminate].
  rewrite app_nil_r, lines_join. unfold heading, frontText, nl, quotes. cbn [linesText]. unfold nl.
  rewrite !app_assoc. change [34; 34; 34; 10] with ([34; 34; 34] ++ [10]). rewrite !app_assoc. rewrite removelast_app by discriminate. cbn [removelast]. rewrite app_nil_r. reflexivity.
Qed.
Theorem C99_headers : forall cwd now pyeval a f g, built_ok cwd now pyeval a f g -> forall out from src guard extra ignore,
  In (out, from, src, guard, extra, ignore)
    [(lit "uprops_h.py", lit "uprops.h", lit "common/uprops.h", lit "UPROPS_H", [], []);
     (lit "ucase_h.py", lit "ucase.h", lit "common/ucase.h", lit "UCASE_H", [], [lit "UCASECONTEXT_INITIALIZER"]);
     (lit "uchar_h.py", lit "uchar.h", lit "common/unicode/uchar.h", lit "UCHAR_H", [lit "def U_MASK(x: int) -> int: return 1<<x" ++ nl], [lit "U_NO_NUMERIC_VALUE"]);
     (lit "uscript_h.py", lit "uscript.h", lit "common/unicode/uscript.h", lit "USCRIPT_H", [], [])] ->
  exists s text, textOf cwd a f src s /\ headerText now pyeval s out from guard extra ignore text /\ lookup g (outDirOf cwd a ++ [out]) = Some text.
Proof.
  intros cwd now pyeval a f g H out from src guard extra ignore I.
  destruct I as [E|[E|[E|[E|[]]]]]; injection E as <- <- <- <- <- <-.
  - destruct (built_item cwd now pyeval a f g _ _ H ltac:(do 3 right; left; reflexivity)) as (c & I & L).
    destruct (header_item _ _ _ _ _ (lit "common/uprops.h") _ _ (lit "uprops.h") _ _ _ [lit "common"] eq_refl I) as (s & A & B). exists s, c. auto.
  - destruct (built_item cwd now pyeval a f g _ _ H ltac:(do 4 right; left; reflexivity)) as (c & I & L).
    destruct (header_item _ _ _ _ _ (lit "common/ucase.h") _ _ (lit "ucase.h") _ _ _ [lit "common"] eq_refl I) as (s & A & B). exists s, c. auto.
  - destruct (built_item cwd now pyeval a f g _ _ H ltac:(do 5 right; left; reflexivity)) as (c & I & L).
    destruct (header_item _ _ _ _ _ (lit "common/unicode/uchar.h") _ _ (lit "uchar.h") _ _ _ [lit "common"; lit "unicode"] eq_refl I) as (s & A & B). exists s, c. auto.
  - destruct (built_item cwd now pyeval a f g _ _ H ltac:(do 6 right; left; reflexivity)) as (c & I & L).
    destruct (header_item _ _ _ _ _ (lit "common/unicode/uscript.h") _ _ (lit "uscript.h") _ _ _ [lit "common"; lit "unicode"] eq_refl I) as (s & A & B). exists s, c. auto.
Qed.
Print Assumptions C99_headers.

(** The dictionaries and the version, from the rows of ppucd.txt (C87, C88, C94). *)
Theorem C99_dictionaries : forall cwd now pyeval a f g, built_ok cwd now pyeval a f g ->
  exists s rows, lookup f (resolve cwd (joinPath (parsePath (icuSourceDir a)) (lit "data/unidata/ppucd.txt"))) = Some s /\ csvRows s = Ok rows /\
  (Forall row_ok rows ->
    lookup g (outDirOf cwd a ++ [lit "UCDTypeDictionaries.py"]) =
      Some (frontText (lit "UCDReader.py") (lit "UCDTypeDictionaries.py") (lit "ppucd.txt") (now (lit "UCDTypeDictionaries.py")) ++
            lit "from .uchar_h import *" ++ nl ++ lit "from .uscript_h import *" ++ nl ++ nl ++ concat (map (fun t => render (dictOf t rows)) (typesOf rows))) /\
    lookup g (outDirOf cwd a ++ [lit "UnicodeVersion.py"]) =
      Some (lit "unicodeVersion = " ++ [34] ++ match lastVersion rows with Some v => v | None => lit "None" end ++ [34] ++ nl)).
Proof.
  intros cwd now pyeval a f g H.
  destruct (built_item cwd now pyeval a f g _ _ H ltac:(do 9 right; left; reflexivity)) as (c1 & I1 & L1).
  destruct (built_item cwd now pyeval a f g _ _ H ltac:(do 10 right; left; reflexivity)) as (c2 & I2 & L2).
  unfold typesItem in I1. unfold versionItem in I2. destruct (dictionaries cwd a (lookup f)) as [[v lines]|e] eqn:D; cbn [bind] in I1, I2; [|discriminate].
  apply ok_inj in I2 as <-. unfold dictionaries, getRaw in D. destruct (lookup f _) as [s|] eqn:Q; cbn [bind] in D; [|discriminate].
  apply bind_ok in D as (rows & C & D). exists s, rows. split; [reflexivity|]. split; [exact C|]. intros F.
  rewrite (C87_dictionaries rows F) in D. injection D as <- <-. rewrite C88_text in I1. apply ok_inj in I1 as <-. rewrite L1, L2. split; [|reflexivity].
  f_equal. unfold heading, frontText, nl, quotes. cbn [app map concat]. rewrite <- !app_assoc. cbn [app]. rewrite <- ?app_assoc. cbn [app]. rewrite <- ?app_assoc. cbn [app]. rewrite <- ?app_assoc. cbn [app]. reflexivity.
Qed.
Print Assumptions C99_dictionaries.

(** The two files that are copied. *)
Theorem C99_copies : forall cwd now pyeval a f g, built_ok cwd now pyeval a f g ->
  exists v w c l s, textOf cwd a f (lit "common/unicode/uvernum.h") s /\ icuVersionOf s = Ok v /\ icuVersionShortOf s = Ok w /\
    lookup f (resolve cwd (joinPath (parsePath (icuBuildDir a)) (lit "data/out/icudt" ++ w ++ lit "l.dat"))) = Some c /\
    lookup g (outDirOf cwd a ++ [lit "icudata.dat"]) = Some c /\
    lookup f (resolve cwd (joinPath (parent (parsePath (icuSourceDir a))) (lit "LICENSE"))) = Some l /\
    lookup g (outDirOf cwd a ++ [lit "LICENSE"]) = Some l /\
    build cwd now pyeval a f = (Ok (v, w), g).
Proof.
  intros cwd now pyeval a f g H.
  destruct (built_item cwd now pyeval a f g _ _ H ltac:(do 7 right; left; reflexivity)) as (c1 & I1 & L1).
  destruct (built_item cwd now pyeval a f g _ _ H ltac:(do 8 right; left; reflexivity)) as (c2 & I2 & L2).
  unfold datItem in I1. destruct (versions cwd a (lookup f)) as [[v w]|e] eqn:V; cbn [bind] in I1; [|discriminate].
  unfold licenseItem, getRaw in I2. destruct (lookup f (resolve cwd (licensePath a))) as [l|] eqn:Q2; [|discriminate]. apply ok_inj in I2 as <-.
  unfold getRaw in I1. destruct (lookup f (resolve cwd (datPath a w))) as [c|] eqn:Q1; [|discriminate]. apply ok_inj in I1 as <-.
  pose proof V as V0. unfold versions in V. apply bind_ok in V as (s & G & V). apply bind_ok in V as (v' & V1 & V). apply bind_ok in V as (w' & V2 & V). injection V as -> ->.
  exists v, w, c, l, s. split; [apply getText_ok; exact G|]. split; [exact V1|]. split; [exact V2|]. split; [exact Q1|]. split; [exact L1|]. split; [exact Q2|]. split; [exact L2|].
  destruct H as (T & D & L & vw & B). destruct (C95_plan cwd now pyeval a f (Ok vw) g T D L B) as (done & rest & E & _ & _ & _ & VV). rewrite V0 in VV. injection VV as <-. exact B.
Qed.
Print Assumptions C99_copies.

Example C99_case : built_ok work someDay evalName args1 tree1 tree2 /\
  lookup tree2 (pth "home/work/out/BidiPropsData.py") <> None /\ lookup tree2 (pth "home/work/out/UCDTypeDictionaries.py") =
    Some (frontText (lit "UCDReader.py") (lit "UCDTypeDictionaries.py") (lit "ppucd.txt") (lit "May 6, 2021") ++
          lit "from .uchar_h import *" ++ nl ++ lit "from .uscript_h import *" ++ nl ++ nl ++ lit "generalCategoryNames = {" ++ nl ++ lit "    U_UPPERCASE_LETTER: ""Lu""" ++ nl ++ lit "}" ++ nl ++ nl).
Proof.
  destruct C95_case as (A & B & C & D & _). split; [|split; [vm_compute; discriminate|vm_compute; reflexivity]].
  split; [exact A|]. split; [|split].
  - intros n I. rewrite forallb_forall in B. specialize (B n I). apply negb_true_iff in B. exact B.
  - intros E. rewrite E in C. vm_compute in C. discriminate.
  - exists (lit "69.1", lit "69"). unfold tree2. rewrite <- D. apply surjective_pairing.
Qed.
