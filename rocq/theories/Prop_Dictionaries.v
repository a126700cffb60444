(** * Property C104: the dictionaries of a built package *)
From Coq Require Import ZArith List Bool Lia ZifyBool String.
From Verif Require Import Py Dict PyStr Utilities CharNames PyText HeaderFile HeaderFacts HeaderDecls TextFacts CsvReader ModuleBuilder BuilderArgs BuilderFacts Build BuildFacts PyModule PyParse ParseFacts ExprFacts PyEval
  HeaderValues DictFacts Prop_Build Prop_Builder Prop_Header Prop_Outputs Prop_Values Prop_HeaderValues.
Import ListNotations.
Open Scope string_scope.
Open Scope list_scope.
Open Scope Z_scope.
Local Notation length := List.length.
Local Notation concat := List.concat.

(** ** C104

    [rowText row]: the names of a row of a known property are such that they can be written:
    the long name has letters, digits and "_", the short name no quotation mark, backslash or
    end of line. *)
Definition rowText (row : list str) : Prop := forall t s l, BuilderFacts.valueOf row = Some (t, s, l) -> dict_find prefixes t <> None -> forallb wordChar l = true /\ quoted s.
(** the short name of the last entry whose constant has the value [j] *)
Definition shortFor (val : str -> option Z) (entries : list (str * str)) (j : Z) : option str :=
  fold_left (fun acc e => match val (fst e) with Some k => if k =? j then Some (snd e) else acc | None => acc end) entries None.
(** the text after the comment, as in C99 *)
Definition dictionariesText (rows : list (list str)) : str :=
  lit "from .uchar_h import *" ++ nl ++ lit "from .uscript_h import *" ++ nl ++ nl ++ concat (map (fun t => render (dictOf t rows)) (typesOf rows)).
Definition valueIn (e1 e2 : dict pval) (x : str) : option Z :=
  match dict_find e2 x with Some (VInt z) => Some z | Some _ => None | None => match dict_find e1 x with Some (VInt z) => Some z | _ => None end end.
Definition dictName (t : str) : str := tp_name (prefixOf t) ++ lit "Names".

(** *** Names of constants and of dictionaries *)
Lemma prefixes_checked : forallb (fun '(t, p) =>
  match tp_prefix p with 85 :: r => forallb wordChar r | _ => false end && match tp_name p with c :: r => (97 <=? c) && (c <=? 122) && forallb wordChar r | [] => false end &&
  forallb (fun '(l, k) => forallb wordChar k) (tp_map p) && forallb (fun '(t', p') => str_eqb t t' || negb (str_eqb (tp_name p) (tp_name p'))) prefixes) prefixes = true.
Proof. vm_compute. reflexivity. Qed.
Lemma find_in {V} (d : dict V) k v : dict_find d k = Some v -> In (k, v) d.
Proof. induction d as [|[j w] d IH]; [discriminate|]. cbn [dict_find]. destruct (str_eqb j k) eqn:E; [intros [= <-]; apply str_eqb_eq in E; subst; left; reflexivity|right; auto]. Qed.
Lemma known_prefix t rows : In t (typesOf rows) -> In (t, prefixOf t) prefixes /\ dict_find prefixes t <> None.
Proof.
  intros I. apply (proj1 (firsts_in _ _)) in I. apply in_flat_map in I. destruct I as [r [_ I]]. unfold knownType in I. destruct (BuilderFacts.valueOf r) as [[[t2 s2] l2]|]; [|destruct I].
  destruct (dict_find prefixes t2) eqn:P2; [|destruct I]. destruct I as [<-|[]]. unfold prefixOf. rewrite P2. split; [apply find_in; exact P2|discriminate].
Qed.
Lemma no_keyword c w : c = 85 -> keyword (c :: w) = false.
Proof. intros ->. apply Bool.not_true_iff_false. unfold keyword. intros H. apply existsb_exists in H as (k & I & E). apply str_eqb_eq in E. subst k. vm_compute in I. repeat (destruct I as [I|I]; [discriminate I|]). destruct I. Qed.
Lemma upper_word s : forallb wordChar s = true -> forallb wordChar (upper s) = true.
Proof.
  induction s as [|c s IH]; [reflexivity|]. cbn [upper map forallb]. intros H. apply andb_prop in H as [H1 H2]. fold (upper s). rewrite IH by exact H2. rewrite andb_true_r. unfold upperChar, wordChar in *. destruct ((97 <=? c) && (c <=? 122)) eqn:E; lia.
Qed.
Lemma short_quoted f s : quoted s -> quoted (applyShort f s).
Proof.
  intros Q. destruct f; cbn [applyShort]; [|exact Q|].
  - unfold lower. apply Forall_map. eapply Forall_impl; [|exact Q]. intros c H. cbv beta in H |- *. unfold lowerChar. destruct ((65 <=? c) && (c <=? 90)) eqn:E; lia.
  - unfold py_replace. induction Q as [|c s H Q IH]; [constructor|]. cbn [flat_map]. apply Forall_app. split; [|exact IH]. cbv beta in H. match goal with |- context [if ?b then _ else _] => destruct b end; repeat constructor; try lia.
Qed.
Lemma entry_ok t rows e : Forall rowText rows -> In t (typesOf rows) -> In e (entriesOf t (prefixOf t) rows) -> entryOk e /\ hd 0 (fst e) = 85.
Proof.
  intros R T E. destruct (known_prefix t rows T) as [IP KN]. unfold entriesOf in E. apply in_flat_map in E as (row & IR & E). destruct (BuilderFacts.valueOf row) as [[[t' s] l]|] eqn:V; [|destruct E].
  destruct (str_eqb t' t) eqn:Q; [|destruct E]. apply str_eqb_eq in Q. subst t'. rewrite Forall_forall in R. destruct (R row IR t s l V KN) as [W S1].
  pose proof prefixes_checked as K. rewrite forallb_forall in K. specialize (K _ IP). cbv beta iota in K. apply andb_prop in K as [K _]. apply andb_prop in K as [K KM]. apply andb_prop in K as [KP _].
  assert (G : forall k, forallb wordChar k = true -> entryOk (tp_prefix (prefixOf t) ++ lit "_" ++ k, applyShort (tp_fun (prefixOf t)) s) /\ hd 0 (tp_prefix (prefixOf t) ++ lit "_" ++ k) = 85).
  { intros k WK. destruct (tp_prefix (prefixOf t)) as [|c p]; [discriminate|]. assert (c = 85) as -> by (destruct c as [|q|q]; try discriminate KP; do 7 (destruct q as [q|q|]; try discriminate KP); reflexivity).
    split; [|reflexivity]. split; [|apply short_quoted; exact S1]. cbn [fst app]. split; [split; [reflexivity|]|apply no_keyword; reflexivity]. rewrite !forallb_app, WK. rewrite KP. reflexivity. }
  unfold entryOf in E. destruct (dict_find (tp_map (prefixOf t)) l) as [[|c k]|] eqn:D; [destruct E| |]; (destruct E as [<-|[]]); [|apply G, upper_word; exact W].
  apply G. rewrite forallb_forall in KM. exact (KM _ (find_in _ _ _ D)).
Qed.
Lemma dictName_ok t rows : In t (typesOf rows) -> ident (dictName t) /\ 97 <= hd 0 (dictName t) <= 122.
Proof.
  intros T. destruct (known_prefix t rows T) as [IP _]. assert (K : forallb (fun '(t, p) => let x := tp_name p ++ lit "Names" in match x with c :: w => letter c && forallb wordChar w && negb (keyword x) && (97 <=? c) && (c <=? 122) | [] => false end) prefixes = true) by (vm_compute; reflexivity).
  rewrite forallb_forall in K. specialize (K _ IP). cbv beta iota zeta in K. unfold dictName. destruct (tp_name (prefixOf t) ++ lit "Names") as [|c w]; [discriminate|]. unfold ident. cbn [hd].
  destruct (letter c), (forallb wordChar w), (keyword (c :: w)); try discriminate K. cbn in K. repeat split; lia.
Qed.
Lemma dictName_inj t t' rows : In t (typesOf rows) -> In t' (typesOf rows) -> dictName t = dictName t' -> t = t'.
Proof.
  intros T T' E. destruct (known_prefix t rows T) as [IP _]. destruct (known_prefix t' rows T') as [IP' _]. unfold dictName in E. apply app_inv_tail in E.
  pose proof prefixes_checked as K. rewrite forallb_forall in K. specialize (K _ IP). cbv beta iota in K. apply andb_prop in K as [_ K]. rewrite forallb_forall in K. specialize (K _ IP'). cbv beta iota in K.
  rewrite E, str_eqb_refl in K. cbn [negb] in K. rewrite orb_false_r in K. apply str_eqb_eq. exact K.
Qed.

(** *** Reading the text *)
Lemma dictOf_exprs t rows : dictOf t rows = SAssign (dictName t) (EDict (map exprOf (entriesOf t (prefixOf t) rows))).
Proof. unfold dictOf, dictName. f_equal. f_equal. apply map_ext. intros [a b]. reflexivity. Qed.
Lemma text_reads mods e1 e2 rows : mods (lit "uchar_h") = Some e1 -> mods (lit "uscript_h") = Some e2 -> Forall rowText rows ->
  reads mods (dictionariesText rows) (SImport e1 :: SImport e2 :: map (fun t => dictOf t rows) (typesOf rows)).
Proof.
  intros M1 M2 R. unfold dictionariesText.
  assert (D : forall ts, (forall t, In t ts -> In t (typesOf rows)) -> reads mods (concat (map (fun t => render (dictOf t rows)) ts)) (map (fun t => dictOf t rows) ts)).
  { induction ts as [|t ts IH]; intros H; [apply reads_nil|]. cbn [map concat]. rewrite dictOf_exprs. apply reads_dict; [apply (dictName_ok t rows); apply H; left; reflexivity| |apply IH; intros t' I; apply H; right; exact I].
    apply Forall_forall. intros e I. apply (entry_ok t rows e R); [apply H; left; reflexivity|exact I]. }
  change (reads mods (lit "from ." ++ lit "uchar_h" ++ lit " import *" ++ 10 :: lit "from ." ++ lit "uscript_h" ++ lit " import *" ++ 10 :: 10 :: concat (map (fun t => render (dictOf t rows)) (typesOf rows))) (SImport e1 :: SImport e2 :: map (fun t => dictOf t rows) (typesOf rows))).
  apply reads_import; [solve_ident|exact M1|]. apply reads_import; [solve_ident|exact M2|]. apply reads_nl. apply D. auto.
Qed.

(** *** Running it *)
Lemma short_fold val (l : list (str * str)) ks j : Forall2 (fun e k => val (fst e) = Some k) l ks ->
  fold_left (fun acc '(e, k) => if k =? j then Some (VStr (snd e)) else acc) (combine l ks) None = option_map VStr (shortFor val l j).
Proof.
  unfold shortFor. change (@None pval) with (option_map VStr None). generalize (@None str) as acc. intros acc F. revert acc. induction F as [|[a b] k l ks H F IH]; intros acc; [reflexivity|].
  cbn [combine fold_left fst snd] in *. rewrite H. rewrite <- IH. f_equal. destruct (k =? j); reflexivity.
Qed.
Theorem C104_import : forall mods e1 e2 date rows, mods (lit "uchar_h") = Some e1 -> mods (lit "uscript_h") = Some e2 -> NoDup (map fst e1) -> NoDup (map fst e2) ->
  plainText date -> Forall rowText rows ->
  (forall t e, In t (typesOf rows) -> In e (entriesOf t (prefixOf t) rows) -> valueIn e1 e2 (fst e) <> None) ->
  exists env, importText mods (frontText (lit "UCDReader.py") (lit "UCDTypeDictionaries.py") (lit "ppucd.txt") date ++ dictionariesText rows) = Ok env /\
  forall t, In t (typesOf rows) -> exists d, dict_find env (dictName t) = Some (VDict d) /\
    forall j, vd_find d (VInt j) = option_map VStr (shortFor (valueIn e1 e2) (entriesOf t (prefixOf t) rows) j).
Proof.
  intros mods e1 e2 date rows M1 M2 N1 N2 PD R DEF.
  assert (RD : reads mods (frontText (lit "UCDReader.py") (lit "UCDTypeDictionaries.py") (lit "ppucd.txt") date ++ dictionariesText rows) (SImport e1 :: SImport e2 :: map (fun t => dictOf t rows) (typesOf rows))).
  { apply reads_front; try solve_plain; [exact PD|]. apply text_reads; assumption. }
  set (env0 := import_all (import_all [] e1) e2).
  assert (V0 : forall x z, hd 0 x = 85 -> valueIn e1 e2 x = Some z -> dict_find env0 x = Some (VInt z)).
  { intros x z H V. assert (P : public_name x) by (unfold public_name; lia). unfold env0. rewrite import_find by assumption. rewrite import_find by assumption. unfold valueIn in V.
    destruct (dict_find e2 x) as [v|]; [destruct v; try discriminate; congruence|]. destruct (dict_find e1 x) as [v|]; [destruct v; try discriminate; congruence|discriminate]. }
  assert (G : forall ts env, (forall t, In t ts -> In t (typesOf rows)) -> NoDup ts -> (forall x, hd 0 x = 85 -> dict_find env x = dict_find env0 x) ->
    exists env', run env (map (fun t => dictOf t rows) ts) = Ok env' /\ (forall x, (forall t, In t ts -> x <> dictName t) -> dict_find env' x = dict_find env x) /\
    forall t, In t ts -> exists d, dict_find env' (dictName t) = Some (VDict d) /\ forall j, vd_find d (VInt j) = option_map VStr (shortFor (valueIn e1 e2) (entriesOf t (prefixOf t) rows) j)).
  { induction ts as [|t ts IH]; intros env HT ND HE; [exists env; split; [reflexivity|]; split; [reflexivity|intros t []]|].
    assert (T : In t (typesOf rows)) by (apply HT; left; reflexivity). inversion ND as [|? ? NI ND']; subst.
    assert (KS : exists ks, Forall2 (fun e k => valueIn e1 e2 (fst e) = Some k) (entriesOf t (prefixOf t) rows) ks).
    { assert (X : forall l, (forall e, In e l -> In e (entriesOf t (prefixOf t) rows)) -> exists ks, Forall2 (fun e k => valueIn e1 e2 (fst e) = Some k) l ks).
      { induction l as [|e l IHl]; intros HL; [exists []; constructor|]. destruct IHl as [ks F]; [intros e' I; apply HL; right; exact I|]. pose proof (DEF t e T (HL e (or_introl eq_refl))) as D. destruct (valueIn e1 e2 (fst e)) as [k|] eqn:Q; [|contradiction]. exists (k :: ks). constructor; assumption. }
      apply X. auto. }
    destruct KS as [ks KS]. assert (C : constants env (entriesOf t (prefixOf t) rows) ks).
    { unfold constants. assert (HD : Forall (fun e => hd 0 (fst e) = 85) (entriesOf t (prefixOf t) rows)) by (apply Forall_forall; intros e I; apply (entry_ok t rows e R T I)).
      clear - KS HE V0 HD. induction KS as [|e k l ks H F IHF]; [constructor|]. inversion HD; subst. constructor; [rewrite HE by assumption; apply V0; assumption|apply IHF; assumption]. }
    destruct (C88_run env t rows ks C) as (d & ST & VD). fold (dictName t) in ST.
    destruct (IH (dict_set env (dictName t) (VDict d))) as (env' & RUN & FR & AL); [intros t' I; apply HT; right; exact I|exact ND'| |].
    { intros x H. rewrite find_set. destruct (str_eqb (dictName t) x) eqn:Q; [apply str_eqb_eq in Q; subst x; pose proof (proj2 (dictName_ok t rows T)); lia|]. apply HE. exact H. }
    exists env'. split; [cbn [map run]; rewrite ST; cbn [bind]; exact RUN|]. split.
    - intros x H. rewrite FR by (intros t' I; apply H; right; exact I). rewrite find_set. destruct (str_eqb (dictName t) x) eqn:Q; [apply str_eqb_eq in Q; subst x; elim (H t (or_introl eq_refl) eq_refl)|reflexivity].
    - intros t' [<-|I]; [|apply AL; exact I]. exists d. split.
      + rewrite FR; [rewrite find_set, str_eqb_refl; reflexivity|]. intros t' I E. apply NI. rewrite (dictName_inj t t' rows T (HT t' (or_intror I)) E). exact I.
      + intros j. rewrite VD. apply short_fold. exact KS. }
  destruct (G (typesOf rows) env0) as (env & RUN & _ & AL); [auto|apply firsts_nodup|reflexivity|].
  exists env. split; [|exact AL]. unfold importText. rewrite (reads_parse _ _ _ RD). unfold exec. cbn [run step bind]. exact RUN.
Qed.
Print Assumptions C104_import.
(** A constant that neither header has stops the import. *)
Definition undefinedIn (e1 e2 : dict pval) (x : str) : Prop := dict_find e1 x = None /\ dict_find e2 x = None.
Theorem C104_missing : forall mods e1 e2 date rows, mods (lit "uchar_h") = Some e1 -> mods (lit "uscript_h") = Some e2 -> NoDup (map fst e1) -> NoDup (map fst e2) ->
  plainText date -> Forall rowText rows ->
  (forall t e, In t (typesOf rows) -> In e (entriesOf t (prefixOf t) rows) -> valueIn e1 e2 (fst e) <> None \/ undefinedIn e1 e2 (fst e)) ->
  (exists t e, In t (typesOf rows) /\ In e (entriesOf t (prefixOf t) rows) /\ undefinedIn e1 e2 (fst e)) ->
  importText mods (frontText (lit "UCDReader.py") (lit "UCDTypeDictionaries.py") (lit "ppucd.txt") date ++ dictionariesText rows) = Err NameError.
Proof.
  intros mods e1 e2 date rows M1 M2 N1 N2 PD R ALL (t0 & e0 & T0 & E0 & U0).
  assert (RD : reads mods (frontText (lit "UCDReader.py") (lit "UCDTypeDictionaries.py") (lit "ppucd.txt") date ++ dictionariesText rows) (SImport e1 :: SImport e2 :: map (fun t => dictOf t rows) (typesOf rows))).
  { apply reads_front; try solve_plain; [exact PD|]. apply text_reads; assumption. }
  set (env0 := import_all (import_all [] e1) e2).
  assert (V0 : forall x, hd 0 x = 85 -> dict_find env0 x = match dict_find e2 x with Some v => Some v | None => dict_find e1 x end).
  { intros x H. assert (P : public_name x) by (unfold public_name; lia). unfold env0. rewrite import_find by assumption. rewrite import_find by assumption. destruct (dict_find e2 x); [reflexivity|]. destruct (dict_find e1 x); reflexivity. }
  assert (ONE : forall env l, (forall x, hd 0 x = 85 -> dict_find env x = dict_find env0 x) -> (forall e, In e l -> hd 0 (fst e) = 85 /\ (valueIn e1 e2 (fst e) <> None \/ undefinedIn e1 e2 (fst e))) ->
    eval env (EDict (map exprOf l)) = if existsb (fun e => match valueIn e1 e2 (fst e) with None => true | Some _ => false end) l then Err NameError else eval env (EDict (map exprOf l))).
  { intros env l HE. cbn [eval]. generalize (@nil (pval * pval)) as d. induction l as [|[a b] l IH]; intros d HL; [reflexivity|].
    destruct (HL (a, b) (or_introl eq_refl)) as [HH HV]. cbn [map exprOf fst snd eval existsb] in *. rewrite HE, V0 by exact HH.
    assert (CASES : (exists z, match dict_find e2 a with Some v => Some v | None => dict_find e1 a end = Some (VInt z) /\ valueIn e1 e2 a = Some z) \/ (match dict_find e2 a with Some v => Some v | None => dict_find e1 a end = None /\ valueIn e1 e2 a = None)).
    { destruct HV as [HV|[H1 H2]]; [left|right; unfold valueIn; rewrite H1, H2; auto]. unfold valueIn in *. destruct (dict_find e2 a) as [v|]; [destruct v; try contradiction; eauto|]. destruct (dict_find e1 a) as [v|]; [destruct v; try contradiction; eauto|contradiction]. }
    destruct CASES as [(z & -> & ->)|[-> ->]]; cbn [bind orb]; [|reflexivity]. cbn [hashable]. apply IH. intros e I. apply HL. right. exact I. }
  unfold importText. rewrite (reads_parse _ _ _ RD). unfold exec. cbn [run step bind]. fold env0.
  assert (G : forall ts env, (forall t, In t ts -> In t (typesOf rows)) -> (forall x, hd 0 x = 85 -> dict_find env x = dict_find env0 x) -> In t0 ts -> run env (map (fun t => dictOf t rows) ts) = Err NameError).
  { induction ts as [|t ts IH]; intros env HT HE I; [destruct I|]. cbn [map run]. rewrite dictOf_exprs. cbn [step]. assert (T : In t (typesOf rows)) by (apply HT; left; reflexivity).
    assert (HL : forall e, In e (entriesOf t (prefixOf t) rows) -> hd 0 (fst e) = 85 /\ (valueIn e1 e2 (fst e) <> None \/ undefinedIn e1 e2 (fst e))).
    { intros e IE. split; [apply (entry_ok t rows e R T IE)|apply (ALL t e T IE)]. }
    rewrite (ONE _ _ HE HL). destruct (existsb _ _) eqn:X; [reflexivity|].
    destruct I as [->|I].
    - exfalso. apply Bool.not_true_iff_false in X. apply X. apply existsb_exists. exists e0. split; [exact E0|]. destruct U0 as [U1 U2]. unfold valueIn. rewrite U1, U2. reflexivity.
    - assert (KS : exists ks, constants env (entriesOf t (prefixOf t) rows) ks).
      { clear - X HL HE V0. induction (entriesOf t (prefixOf t) rows) as [|e l IHl]; [exists []; constructor|]. cbn [existsb] in X. apply orb_false_elim in X as [X1 X2].
        destruct IHl as [ks F]; [intros e' I; apply HL; right; exact I|exact X2|]. destruct (HL e (or_introl eq_refl)) as [H _]. destruct (valueIn e1 e2 (fst e)) as [z|] eqn:Q; [|discriminate].
        exists (z :: ks). constructor; [|exact F]. rewrite HE, V0 by exact H. unfold valueIn in Q. destruct (dict_find e2 (fst e)) as [v|]; [destruct v; congruence|]. destruct (dict_find e1 (fst e)) as [v|]; [destruct v; congruence|discriminate]. }
      destruct KS as [ks KS]. change (map exprOf (entriesOf t (prefixOf t) rows)) with (map (fun e : str * str => (EName (fst e), EStr (snd e))) (entriesOf t (prefixOf t) rows)).
      rewrite (map_ext _ (fun '(a, b) => (EName a, EStr b))) by (intros [a b]; reflexivity). rewrite (eval_dict _ _ _ KS). cbn [bind]. apply IH; [intros t' I'; apply HT; right; exact I'| |exact I].
      intros x H. rewrite find_set. destruct (str_eqb (dictName t) x) eqn:Q; [apply str_eqb_eq in Q; subst x; pose proof (proj2 (dictName_ok t rows T)); lia|]. apply HE. exact H. }
  apply G; [auto|reflexivity|exact T0].
Qed.
Print Assumptions C104_missing.

(** *** From the sources
    [declared bs]: the value of a name among declarations, the last counting;
    [headerDeclares]: a header of the source tree declares [bs], as in C102. *)
Definition declared (bs : list (str * Z)) : str -> option Z := fold_left (fun g b => upd g (fst b) (snd b)) bs noName.
Definition headerDeclares cwd a f (src guard : str) (mask : bool) (ignore : list str) (bs : list (str * Z)) : Prop :=
  exists s items ds, textOf cwd a f src s /\ Forall (item_ok guard) items /\ linesOf s (flat_map item_lines items) /\
  map getTrailingComment (flat_map item_code items) = flat_map decl_lines ds /\ Forall decl_ok ds /\ declares mask ignore noName ds bs.
(** the modules in the output directory that import no others *)
Definition package cwd a (g : fs) (m : str) : option (dict pval) :=
  match lookup g (outDirOf cwd a ++ [m ++ lit ".py"]) with
  | Some text => match importText (fun _ => None) text with Ok e => Some e | Err _ => None end
  | None => None
  end.
Lemma package_intro cwd a g m text e : lookup g (outDirOf cwd a ++ [m ++ lit ".py"]) = Some text -> importText (fun _ => None) text = Ok e -> package cwd a g m = Some e.
Proof. intros K M. unfold package. rewrite K, M. reflexivity. Qed.
Theorem C104_build : forall cwd now pyeval a f g bs1 bs2, built_ok cwd now pyeval a f g -> evaluates pyeval ->
  (forall out, plainText (now out)) ->
  headerDeclares cwd a f (lit "common/unicode/uchar.h") (lit "UCHAR_H") true [lit "U_NO_NUMERIC_VALUE"] bs1 ->
  headerDeclares cwd a f (lit "common/unicode/uscript.h") (lit "USCRIPT_H") false [] bs2 ->
  let val x := match declared bs2 x with Some z => Some z | None => declared bs1 x end in
  exists s rows, lookup f (resolve cwd (joinPath (parsePath (icuSourceDir a)) (lit "data/unidata/ppucd.txt"))) = Some s /\ csvRows s = Ok rows /\
  (Forall row_ok rows -> Forall rowText rows -> (forall t e, In t (typesOf rows) -> In e (entriesOf t (prefixOf t) rows) -> val (fst e) <> None) ->
   exists text env, lookup g (outDirOf cwd a ++ [lit "UCDTypeDictionaries.py"]) = Some text /\ importText (package cwd a g) text = Ok env /\
   forall t, In t (typesOf rows) -> exists d, dict_find env (dictName t) = Some (VDict d) /\
     forall j, vd_find d (VInt j) = option_map VStr (shortFor val (entriesOf t (prefixOf t) rows) j)).
Proof.
  intros cwd now pyeval a f g bs1 bs2 B EV PD (s1 & i1 & d1 & T1 & I1 & L1 & C1 & D1 & E1) (s2 & i2 & d2 & T2 & I2 & L2 & C2 & D2 & E2) val.
  destruct (C99_dictionaries cwd now pyeval a f g B) as (s & rows & LS & CS & W). exists s, rows. split; [exact LS|]. split; [exact CS|]. intros RO RT DEF.
  destruct (W RO) as [LK _]. eexists. 
  destruct (C102_build (fun _ => None) cwd now pyeval a f g B EV (lit "uchar_h.py") (lit "uchar.h") (lit "common/unicode/uchar.h") (lit "UCHAR_H") true [lit "U_NO_NUMERIC_VALUE"] ltac:(do 2 right; left; reflexivity) (PD _) s1 i1 d1 bs1 T1 I1 L1 C1 D1 E1) as (x1 & e1 & K1 & M1 & F1).
  destruct (C102_build (fun _ => None) cwd now pyeval a f g B EV (lit "uscript_h.py") (lit "uscript.h") (lit "common/unicode/uscript.h") (lit "USCRIPT_H") false [] ltac:(do 3 right; left; reflexivity) (PD _) s2 i2 d2 bs2 T2 I2 L2 C2 D2 E2) as (x2 & e2 & K2 & M2 & F2).
  assert (VAL : forall x, valueIn e1 e2 x = val x).
  { intros x. unfold valueIn, val, declared. rewrite F1, F2. unfold Prop_HeaderValues.valueOf. destruct (fold_left _ bs2 noName x); [reflexivity|]. cbn [andb]. destruct (fold_left _ bs1 noName x); [reflexivity|]. destruct (str_eqb x (lit "U_MASK")); reflexivity. }
  assert (P1 : package cwd a g (lit "uchar_h") = Some e1) by exact (package_intro cwd a g (lit "uchar_h") x1 e1 K1 M1).
  assert (P2 : package cwd a g (lit "uscript_h") = Some e2) by exact (package_intro cwd a g (lit "uscript_h") x2 e2 K2 M2).
  destruct (C104_import (package cwd a g) e1 e2 (now (lit "UCDTypeDictionaries.py")) rows P1 P2 (importText_nodup _ _ _ M1) (importText_nodup _ _ _ M2) (PD _) RT) as (env & IM & AL).
  { intros t e T E. rewrite VAL. apply DEF with t; assumption. }
  exists env. split; [exact LK|]. split; [exact IM|]. intros t T. destruct (AL t T) as (d & F & V). exists d. split; [exact F|]. intros j. rewrite V. f_equal. clear V.
  unfold shortFor. generalize (@None str). induction (entriesOf t (prefixOf t) rows) as [|e l IH]; intros acc; [reflexivity|]. cbn [fold_left]. rewrite VAL. apply IH.
Qed.
Print Assumptions C104_build.

(** The names are not escaped: a quotation mark in a short name makes the module unreadable,
    whatever the headers are; a hyphen in a long name is read as an operator. *)
Theorem C104_names_refuted :
  (forall mods, importText mods (dictionariesText [[lit "value"; lit "gc"; [76; 34; 117]; lit "Uppercase_Letter"]]) = Err SyntaxError) /\
  (exists e, importText (fun _ => Some [(lit "U_UPPERCASE", VInt 5); (lit "LETTER", VInt 3)]) (dictionariesText [[lit "value"; lit "gc"; lit "Lu"; lit "Uppercase-Letter"]]) = Ok e /\
    dict_find e (lit "generalCategoryNames") = Some (VDict [(VInt 2, VStr (lit "Lu"))])).
Proof. split; [intros mods; vm_compute; reflexivity|]. eexists. split; vm_compute; reflexivity. Qed.
Print Assumptions C104_names_refuted.

(** the source tree of C95 with two constants and a script *)
Definition ucharText : str := concat (lits ["#define U_UPPERCASE_LETTER 1"; "#define U_LOWERCASE_LETTER 2"]).
Definition uscriptText : str := concat (lits ["#define USCRIPT_LATIN 25"]).
Definition ppucdText : str := concat (lits ["ucd;13.0.0"; "value;gc;Lu;Uppercase_Letter"; "value;sc;Latn;Latin"; "value;gc;Ll;Lowercase_Letter"]).
Lemma quoted_check s : forallb (fun c => negb ((c =? 34) || (c =? 92) || (c =? 10))) s = true -> quoted s.
Proof. rewrite forallb_forall. intros H. apply Forall_forall. intros c I. specialize (H c I). lia. Qed.
Definition tree5 : fs := mkFs (map (fun '(p, c) =>
  if path_eqb p (pth "icu/source/common/unicode/uchar.h") then (p, ucharText) else if path_eqb p (pth "icu/source/common/unicode/uscript.h") then (p, uscriptText)
  else if path_eqb p (pth "icu/source/data/unidata/ppucd.txt") then (p, ppucdText) else (p, c)) (files tree1)) (dirs tree1).
Definition tree6 : fs := snd (build work someDay evalText args1 tree5).
Example C104_case : built_ok work someDay evalText args1 tree5 tree6 /\ evaluates evalText /\ (forall out, plainText (someDay out)) /\
  headerDeclares work args1 tree5 (lit "common/unicode/uchar.h") (lit "UCHAR_H") true [lit "U_NO_NUMERIC_VALUE"] [(lit "U_UPPERCASE_LETTER", 1); (lit "U_LOWERCASE_LETTER", 2)] /\
  headerDeclares work args1 tree5 (lit "common/unicode/uscript.h") (lit "USCRIPT_H") false [] [(lit "USCRIPT_LATIN", 25)] /\
  exists rows, csvRows ppucdText = Ok rows /\ Forall row_ok rows /\ Forall rowText rows /\ typesOf rows = [lit "gc"; lit "sc"] /\
  exists text env, lookup tree6 (outDirOf work args1 ++ [lit "UCDTypeDictionaries.py"]) = Some text /\ importText (package work args1 tree6) text = Ok env /\
    dict_find env (lit "generalCategoryNames") = Some (VDict [(VInt 1, VStr (lit "Lu")); (VInt 2, VStr (lit "Ll"))]).
Proof.
  split.
  { split; [vm_compute; reflexivity|]. split; [|split].
    - assert (B : forallb (fun n => negb (isDir tree5 (outDirOf work args1 ++ [n]))) outputs = true) by (vm_compute; reflexivity). intros n I. rewrite forallb_forall in B. specialize (B n I). apply negb_true_iff in B. exact B.
    - intros E. vm_compute in E. discriminate E.
    - exists (lit "69.1", lit "69"). unfold tree6. assert (fst (build work someDay evalText args1 tree5) = Ok (lit "69.1", lit "69")) as <- by (vm_compute; reflexivity). apply surjective_pairing. }
  split; [exact evalText_evaluates|]. split; [intros out; solve_plain|]. split; [|split].
  - exists ucharText. exists [ICode (lit "#define U_UPPERCASE_LETTER 1" ++ [10]); ICode (lit "#define U_LOWERCASE_LETTER 2" ++ [10])].
    exists [DValue (lit "U_UPPERCASE_LETTER") (lit " ") (lit "1") []; DValue (lit "U_LOWERCASE_LETTER") (lit " ") (lit "2") []].
    split; [eexists; split; vm_compute; reflexivity|]. split.
    { repeat (constructor; [cbn [item_ok lits map]; unfold plain; repeat match goal with |- _ /\ _ => split | |- Forall _ _ => constructor | |- ?a <> [] => (let H := fresh in intros H; vm_compute in H; discriminate H)
      | |- guard_line _ _ => guards | |- ~ guard_line _ _ => guards
      | |- _ -> _ => first [intros _; vm_compute; reflexivity|let H := fresh in intros H; vm_compute in H; discriminate H] | |- _ = _ => vm_compute; reflexivity end|]).
      all: first [apply Forall_nil|vm_compute; reflexivity]. }
    split; [apply C99_lines; vm_compute; reflexivity|]. split; [vm_compute; reflexivity|]. split; [repeat (constructor; [vm_compute; repeat (split || discriminate)|]); constructor|].
    apply de_value; [intros [E|[]]; discriminate E|solve_var|solve_line|apply m_num; exact (one_digit 49 ltac:(lia))|].
    apply de_value; [intros [E|[]]; discriminate E|solve_var|solve_line|apply m_num; exact (one_digit 50 ltac:(lia))|constructor].
  - exists uscriptText. exists [ICode (lit "#define USCRIPT_LATIN 25" ++ [10])]. exists [DValue (lit "USCRIPT_LATIN") (lit " ") (lit "25") []].
    split; [eexists; split; vm_compute; reflexivity|]. split.
    { repeat (constructor; [cbn [item_ok lits map]; unfold plain; repeat match goal with |- _ /\ _ => split | |- Forall _ _ => constructor | |- ?a <> [] => (let H := fresh in intros H; vm_compute in H; discriminate H)
      | |- guard_line _ _ => guards | |- ~ guard_line _ _ => guards
      | |- _ -> _ => first [intros _; vm_compute; reflexivity|let H := fresh in intros H; vm_compute in H; discriminate H] | |- _ = _ => vm_compute; reflexivity end|]).
      all: first [apply Forall_nil|vm_compute; reflexivity]. }
    split; [apply C99_lines; vm_compute; reflexivity|]. split; [vm_compute; reflexivity|]. split; [repeat (constructor; [vm_compute; repeat (split || discriminate)|]); constructor|].
    apply de_value; [intros []|solve_var|solve_line| |constructor]. apply m_num. apply (num_dec [50; 53]). split; [discriminate|]. split; [repeat (constructor; [lia|]); constructor|discriminate].
  - eexists. split; [vm_compute; reflexivity|]. split; [repeat (constructor; [split; intros E; try (vm_compute in E; discriminate E); cbn; lia|]); constructor|]. split.
    { apply Forall_forall. intros row I. unfold rowText. cbn [In] in I. repeat (destruct I as [<-|I]; [intros t s l V _; vm_compute in V; first [discriminate V|injection V as <- <- <-; split; [vm_compute; reflexivity|apply quoted_check; vm_compute; reflexivity]]|]). destruct I. }
    split; [vm_compute; reflexivity|]. eexists. eexists. split; [vm_compute; reflexivity|]. split; vm_compute; reflexivity.
Qed.
