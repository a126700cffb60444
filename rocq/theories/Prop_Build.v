(** * Building and installing (C95, C96): module_builder/ModuleBuilder.py:171-255, ModuleInstaller.py *)
From Coq Require Import ZArith List Bool Lia ZifyBool String.
From Verif Require Import Py Dict PyStr Utilities CharNames PyText ModuleBuilder HeaderFile HeaderFacts BuilderArgs CsvReader UCDFacts Build BuildFacts BuildRun.
Import ListNotations.
Open Scope string_scope.
Open Scope list_scope.
Open Scope Z_scope.
Local Notation length := List.length.
Local Notation concat := List.concat.

(** ** C95: the eleven outputs

    [plan] (BuildFacts.v) lists the outputs in order, each with what it is made of as a function of
    the input files.  The build carries it out up to the end or to the first output that cannot
    be made: what comes before is in place, made from the inputs as they were before, and nothing
    else is changed.  The result is the version pair of uvernum.h, or the error of that output. *)
Definition outDirOf (cwd : path) (a : args) : path := resolve cwd (parsePath (outputDir a)).
Theorem C95_plan : forall cwd now pyeval a f r g,
  (** the output directory is no file and no directory is in the way of an output *)
  throughFile f (outDirOf cwd a) = false -> (forall n, In n outputs -> isDir f (outDirOf cwd a ++ [n]) = false) ->
  (** the license is not copied to itself *)
  resolve cwd (parent (parsePath (icuSourceDir a)) ++ [lit "LICENSE"]) <> outDirOf cwd a ++ [lit "LICENSE"] ->
  build cwd now pyeval a f = (r, g) ->
  exists done rest, plan cwd now pyeval a = done ++ rest /\
    (forall n i, In (n, i) done -> exists c, i (lookup f) = Ok c /\ lookup g (outDirOf cwd a ++ [n]) = Some c) /\
    (forall p, (forall n, In n (map fst done) -> p <> outDirOf cwd a ++ [n]) -> lookup g p = lookup f p) /\
    match r with
    | Ok v => rest = [] /\ versions cwd a (lookup f) = Ok v
    | Err e' => exists n i r e, rest = (n, i) :: r /\ i (lookup f) = Err e /\ (e = e' \/ (e = FileNotFoundError \/ e = OSError) /\ (e' = FileNotFoundError \/ e' = OSError))
    end.
Proof.
  intros cwd now pyeval a f r g T D L B.
  destruct (build_carriedOut cwd now pyeval a f L (conj T D)) as (done & rest & E & (C & F & H) & R). rewrite B in C, F, H, R. cbn [fst snd] in *.
  exists done, rest. split; [exact E|]. split; [|split; [exact H|exact R]]. intros n i Hi. rewrite Forall_forall in F. exact (F (n, i) Hi).
Qed.
Print Assumptions C95_plan.

(** the build succeeds exactly when every output can be made from the inputs *)
Theorem C95_success : forall cwd now pyeval a f,
  throughFile f (outDirOf cwd a) = false -> (forall n, In n outputs -> isDir f (outDirOf cwd a ++ [n]) = false) ->
  resolve cwd (parent (parsePath (icuSourceDir a)) ++ [lit "LICENSE"]) <> outDirOf cwd a ++ [lit "LICENSE"] ->
  (exists v g, build cwd now pyeval a f = (Ok v, g)) <-> (forall n i, In (n, i) (plan cwd now pyeval a) -> exists c, i (lookup f) = Ok c).
Proof.
  intros cwd now pyeval a f T D L. destruct (build cwd now pyeval a f) as [r g] eqn:B.
  destruct (C95_plan cwd now pyeval a f r g T D L B) as (done & rest & E & F & _ & R). split.
  - intros (v & g' & Q). inversion Q; subst. destruct R as [-> _]. rewrite app_nil_r in E. rewrite E. intros n i Hi. destruct (F n i Hi) as (c & Hc & _). exists c. exact Hc.
  - intros H. destruct r as [v|e']; [exists v, g; reflexivity|]. destruct R as (n & i & r & e & -> & Hi & _). destruct (H n i) as (c & Hc); [rewrite E; apply in_or_app; right; left; reflexivity|]. congruence.
Qed.
Print Assumptions C95_success.

(** whatever happens, no other file is changed *)
Theorem C95_frame : forall cwd now pyeval a f p c, lookup f p = Some c -> (forall n, In n outputs -> p <> outDirOf cwd a ++ [n]) -> (forall x, p <> outDirOf cwd a ++ [lit "icudata.dat"; x]) ->
  lookup (snd (build cwd now pyeval a f)) p = Some c.
Proof.
  intros cwd now pyeval a f p c H N1 N2. rewrite <- H. destruct (list_eq_dec (list_eq_dec Z.eq_dec) p (outDirOf cwd a)) as [->|NP].
  - assert (T : throughFile f (outDirOf cwd a) = true).
    { apply existsb_exists. exists (outDirOf cwd a, c). split; [apply findFile_some; exact H|apply prefix_refl]. }
    unfold build, buildModule. unfold andThen at 1 2. unfold makedirs at 1. unfold outDirOf in T. rewrite T. reflexivity.
  - set (W := fun q => q = outDirOf cwd a \/ (exists n, In n outputs /\ q = outDirOf cwd a ++ [n]) \/ exists x, q = outDirOf cwd a ++ [lit "icudata.dat"; x]).
    assert (NW : ~ W p) by (intros [Q|[(n & Hn & Q)|(x & Q)]]; [contradiction|exact (N1 n Hn Q)|exact (N2 x Q)]).
    assert (WO : forall n, plain n -> parsePath n = [n] -> In n outputs -> W (resolve cwd (joinPath (parsePath (outputDir a)) n))).
    { intros n P E I. right. left. exists n. split; [exact I|]. unfold joinPath. rewrite E. apply resolve_app. constructor; [exact P|constructor]. }
    assert (MOD : forall src n ps, plain n -> parsePath n = [n] -> In n outputs -> tame W (buildModule cwd now (parsePath (icuSourceDir a)) src (parsePath (outputDir a)) n ps)).
    { intros src n ps P E I. apply tame_bind; [apply tame_mkdirs|intros _]. apply tame_bind; [apply tame_text|intros s]. apply tame_bind; [apply tame_lift|intros l]. apply tame_writeAt, WO; assumption. }
    assert (HDR : forall src n ex ig, headerName (pathName (joinPath (parsePath (icuSourceDir a)) src)) ++ lit ".py" = n -> plain n -> parsePath n = [n] -> In n outputs ->
      tame W (buildHeader cwd now pyeval (parsePath (icuSourceDir a)) src (parsePath (outputDir a)) ex ig)).
    { intros src n ex ig Q P E I. apply tame_bind; [apply tame_mkdirs|intros _]. apply tame_bind; [apply tame_text|intros s]. apply tame_bind; [apply tame_lift|intros l]. rewrite Q. apply tame_writeAt, WO; assumption. }
    assert (HN : forall s q n, parsePath s = q ++ [n] -> pathName (joinPath (parsePath (icuSourceDir a)) s) = n).
    { intros s q n E. unfold pathName, joinPath. rewrite E, app_assoc. apply last_snoc. }
    enough (tame W (build cwd now pyeval a)) as T by (apply T; exact NW). unfold build.
    do 3 (apply tame_bind; [apply MOD; [split; discriminate|vm_compute; reflexivity|apply out_in; vm_compute; reflexivity]|intros _]).
    apply tame_bind; [apply (HDR _ (lit "uprops_h.py")); [rewrite (HN _ [lit "common"] (lit "uprops.h")) by reflexivity; vm_compute; reflexivity|split; discriminate|vm_compute; reflexivity|apply out_in; vm_compute; reflexivity]|intros _].
    apply tame_bind; [apply (HDR _ (lit "ucase_h.py")); [rewrite (HN _ [lit "common"] (lit "ucase.h")) by reflexivity; vm_compute; reflexivity|split; discriminate|vm_compute; reflexivity|apply out_in; vm_compute; reflexivity]|intros _].
    apply tame_bind; [apply (HDR _ (lit "uchar_h.py")); [rewrite (HN _ [lit "common"; lit "unicode"] (lit "uchar.h")) by reflexivity; vm_compute; reflexivity|split; discriminate|vm_compute; reflexivity|apply out_in; vm_compute; reflexivity]|intros _].
    apply tame_bind; [apply (HDR _ (lit "uscript_h.py")); [rewrite (HN _ [lit "common"; lit "unicode"] (lit "uscript.h")) by reflexivity; vm_compute; reflexivity|split; discriminate|vm_compute; reflexivity|apply out_in; vm_compute; reflexivity]|intros _].
    apply tame_bind; [apply tame_text|intros uv]. apply tame_bind; [apply tame_lift|intros v]. apply tame_bind; [apply tame_lift|intros w].
    apply tame_bind; [|intros _].
    { assert (R : resolve cwd (joinPath (parsePath (outputDir a)) (lit "icudata.dat")) = outDirOf cwd a ++ [lit "icudata.dat"]).
      { unfold joinPath. change (parsePath (lit "icudata.dat")) with [lit "icudata.dat"]. apply resolve_app. constructor; [split; discriminate|constructor]. }
      apply tame_copy; rewrite R; [right; left; exists (lit "icudata.dat"); split; [apply out_in; vm_compute; reflexivity|reflexivity]|]. right. right. rewrite <- app_assoc. eexists. reflexivity. }
    apply tame_bind; [|intros _].
    { apply tame_copy; [left; reflexivity|]. right. left. exists (lit "LICENSE"). split; [apply out_in; vm_compute; reflexivity|]. unfold outDirOf. f_equal. f_equal. apply (last_snoc _ (lit "LICENSE") []). }
    apply tame_bind; [|intros u].
    { unfold buildUCD. apply tame_bind; [apply tame_raw|intros s]. apply tame_bind; [apply tame_lift|intros rows]. apply tame_bind; [apply tame_lift|intros [v' l]]. apply tame_bind; [apply tame_lift|intros cs].
      apply tame_bind; [|intros _; apply tame_ret]. apply tame_writeAt, WO; [split; discriminate|vm_compute; reflexivity|apply out_in; vm_compute; reflexivity]. }
    apply tame_bind; [|intros _; apply tame_ret]. apply tame_writeAt, WO; [split; discriminate|vm_compute; reflexivity|apply out_in; vm_compute; reflexivity].
Qed.
Print Assumptions C95_frame.

(** building again, with the outputs in place, gives the same outputs *)
Theorem C95_again : forall cwd now pyeval a f v g,
  throughFile f (outDirOf cwd a) = false -> (forall n, In n outputs -> isDir f (outDirOf cwd a ++ [n]) = false) ->
  resolve cwd (parent (parsePath (icuSourceDir a)) ++ [lit "LICENSE"]) <> outDirOf cwd a ++ [lit "LICENSE"] ->
  build cwd now pyeval a f = (Ok v, g) -> exists h, build cwd now pyeval a g = (Ok v, h) /\ forall p, lookup h p = lookup g p.
Proof.
  intros cwd now pyeval a f v g T D L B.
  destruct (build_carriedOut cwd now pyeval a f L (conj T D)) as (done & rest & E & P & R). rewrite B in P, R. cbn [fst snd] in *. destruct R as [-> HV].
  pose proof (progress_agree cwd now pyeval a f L done [] g E P) as AG. rewrite app_nil_r in E. subst done.
  pose proof (agree_plan cwd now pyeval a _ _ AG) as FP. rewrite Forall_forall in FP. destruct P as ((T' & D') & F & H). rewrite Forall_forall in F.
  destruct (build cwd now pyeval a g) as [r h] eqn:B2.
  destruct (C95_plan cwd now pyeval a g r h T' D' L B2) as (done2 & rest2 & E2 & F2 & H2 & R2).
  assert (G : forall n i, In (n, i) (plan cwd now pyeval a) -> exists c, i (lookup g) = Ok c /\ lookup g (outDirOf cwd a ++ [n]) = Some c).
  { intros n i Hi. destruct (F (n, i) Hi) as (c & A1 & A2). exists c. pose proof (FP (n, i) Hi) as Q. cbn [fst snd] in *. rewrite <- Q. auto. }
  destruct r as [w|e'].
  - destruct R2 as [-> HW]. rewrite app_nil_r in E2. subst done2. assert (w = v) by (rewrite (agree_versions cwd a _ _ AG) in HV; congruence). subst w. exists h. split; [reflexivity|].
    intros p. destruct (in_dec (list_eq_dec (list_eq_dec Z.eq_dec)) p (map (fun n => outDirOf cwd a ++ [n]) outputs)) as [I|I].
    + apply in_map_iff in I as (n & <- & Hn). rewrite <- (plan_names cwd now pyeval a) in Hn. apply in_map_iff in Hn as ([m i] & Q & Hi). cbn [fst] in Q. subst m.
      destruct (F2 n i Hi) as (c & C1 & ->). destruct (G n i Hi) as (c' & C2 & ->). congruence.
    + apply H2. intros n Hn ->. apply I. rewrite plan_names in Hn. apply (in_map (fun n => outDirOf cwd a ++ [n])). exact Hn.
  - destruct R2 as (n & i & r & e & -> & Hi & _). destruct (G n i) as (c & Hc & _); [rewrite E2; apply in_or_app; right; left; reflexivity|]. congruence.
Qed.
Print Assumptions C95_again.

(** *** The version numbers: the first place where the definition stands with its digits in quotation marks *)
Definition quotedAt (before : str) (ok : Z -> bool) (s pre v : str) : Prop := v <> [] /\ Forall (fun c => ok c = true) v /\ exists post, s = pre ++ before ++ v ++ [34] ++ post.
Lemma span_spec ok s v r : span ok s = (v, r) <-> s = v ++ r /\ Forall (fun c => ok c = true) v /\ match r with c :: _ => ok c = false | [] => True end.
Proof.
  revert v r. induction s as [|c s IH]; intros v r; cbn [span].
  - split; [intros [= <- <-]; repeat constructor|]. intros (E & _ & _). symmetry in E. apply app_eq_nil in E as [-> ->]. reflexivity.
  - destruct (ok c) eqn:O.
    + destruct (span ok s) as [v' r'] eqn:E. specialize (IH v' r'). destruct IH as [IH _]. destruct (IH eq_refl) as (-> & F & X). split.
      * intros [= <- <-]. repeat split; [constructor; assumption|exact X].
      * intros (Q & F2 & X2). destruct v as [|d v]; cbn [app] in Q; [destruct r as [|d r]; [discriminate|]; injection Q as <- <-; congruence|].
        injection Q as <- Q. inversion F2; subst. enough (v' = v /\ r' = r) as [-> ->] by reflexivity. clear -F H2 X X2 Q. revert v Q H2. induction v' as [|y v' IHv]; intros v Q F2.
        { destruct v as [|z v]; [auto|]. cbn [app] in Q. subst r'. inversion F2; subst. cbn in X. congruence. }
        destruct v as [|z v]; cbn [app] in Q; [subst r; inversion F; subst; cbn in X2; congruence|]. injection Q as <- Q. inversion F; subst. inversion F2; subst. destruct (IHv ltac:(assumption) v Q ltac:(assumption)) as [-> ->]. auto.
    + split; [intros [= <- <-]; repeat split; [constructor|exact O]|]. intros (Q & F & X). destruct v as [|d v]; cbn [app] in Q; [subst r; reflexivity|]. injection Q as <- Q. inversion F; subst. congruence.
Qed.
Lemma quoted_iff before ok s v : ok 34 = false -> quotedMatch before ok s = Some v <-> quotedAt before ok s [] v.
Proof.
  intros NQ. unfold quotedMatch, quotedAt. cbn [app]. destruct (starts before s) eqn:ST.
  - apply starts_iff in ST as (t & ->). rewrite skipn_app, skipn_all, Nat.sub_diag. cbn [app skipn]. destruct (span ok t) as [w r] eqn:SP. apply span_spec in SP as (-> & F & X). split.
    + intros H. destruct w as [|c w]; [discriminate|]. destruct r as [|d r]; [discriminate|]. destruct (d =? 34) eqn:E; [|discriminate]. apply Z.eqb_eq in E as ->. injection H as <-. split; [discriminate|]. split; [exact F|]. exists r. reflexivity.
    + intros (NE & F2 & post & Q). apply app_inv_head in Q. assert (S2 : span ok (w ++ r) = (v, 34 :: post)) by (apply span_spec; repeat split; assumption).
      assert (S1 : span ok (w ++ r) = (w, r)) by (apply span_spec; repeat split; assumption). rewrite S1 in S2. injection S2 as -> ->. destruct v; [congruence|reflexivity].
  - split; [discriminate|]. intros (_ & _ & post & ->). rewrite starts_app in ST. discriminate.
Qed.
Lemma findFirst_iff m s v : findFirst m s = Ok v <-> exists pre t, s = pre ++ t /\ m t = Some v /\ forall pre' t', s = pre' ++ t' -> (length pre' < length pre)%nat -> m t' = None.
Proof.
  induction s as [|c s IH]; cbn [findFirst].
  - destruct (m []) as [w|] eqn:E.
    + split; [intros [= ->]; exists [], []; repeat split; [exact E|cbn; lia]|]. intros (pre & t & Q & A & _). symmetry in Q. apply app_eq_nil in Q as [-> ->]. congruence.
    + split; [discriminate|]. intros (pre & t & Q & A & _). symmetry in Q. apply app_eq_nil in Q as [-> ->]. congruence.
  - destruct (m (c :: s)) as [w|] eqn:E.
    + split; [intros [= ->]; exists [], (c :: s); repeat split; [exact E|cbn; lia]|]. intros (pre & t & Q & A & B). destruct pre as [|d pre]; [cbn [app] in Q; subst t; congruence|].
      specialize (B [] (c :: s) eq_refl ltac:(cbn; lia)). congruence.
    + rewrite IH. split.
      * intros (pre & t & -> & A & B). exists (c :: pre), t. repeat split; [exact A|]. intros pre' t' Q L. destruct pre' as [|d pre']; cbn [app] in Q; [subst t'; exact E|]. injection Q as <- Q. apply (B pre'); [exact Q|cbn [length] in L; lia].
      * intros (pre & t & Q & A & B). destruct pre as [|d pre]; cbn [app] in Q; [subst t; congruence|]. injection Q as <- ->. exists pre, t. repeat split; [exact A|]. intros pre' t' Q L. apply (B (c :: pre') t'); [cbn [app]; congruence|cbn [length]; lia].
Qed.
Lemma quotedFirst before ok s v : ok 34 = false -> findFirst (quotedMatch before ok) s = Ok v <->
  exists pre, quotedAt before ok s pre v /\ forall pre' v', quotedAt before ok s pre' v' -> (length pre <= length pre')%nat.
Proof.
  intros NQ. rewrite findFirst_iff. split.
  - intros (pre & t & -> & A & B). apply quoted_iff in A as (NE & F & post & ->); [|exact NQ]. exists pre. split; [split; [exact NE|]; split; [exact F|]; exists post; reflexivity|].
    intros pre' v' (NE' & F' & post' & Q). destruct (le_lt_dec (length pre) (length pre')) as [|L]; [assumption|]. specialize (B pre' _ Q L).
    assert (QM : quotedMatch before ok (before ++ v' ++ [34] ++ post') = Some v') by (apply quoted_iff; [exact NQ|]; split; [exact NE'|]; split; [exact F'|]; exists post'; reflexivity). congruence.
  - intros (pre & (NE & F & post & ->) & H). exists pre, (before ++ v ++ [34] ++ post). split; [reflexivity|]. split.
    + apply quoted_iff; [exact NQ|]. split; [exact NE|]. split; [exact F|]. exists post. reflexivity.
    + intros pre' t' Q L. destruct (quotedMatch before ok t') as [v'|] eqn:E; [|reflexivity]. exfalso. apply quoted_iff in E as (NE' & F' & post' & ->); [|exact NQ].
      specialize (H pre' v'). enough (length pre <= length pre')%nat by lia. apply H. split; [exact NE'|]. split; [exact F'|]. exists post'. exact Q.
Qed.
Theorem C95_versions : forall uvData v,
  (icuVersionOf uvData = Ok v <-> exists pre, quotedAt (lit "#define U_ICU_VERSION """) (fun c => (48 <=? c) && (c <=? 57) || (c =? 46)) uvData pre v /\
     forall pre' v', quotedAt (lit "#define U_ICU_VERSION """) (fun c => (48 <=? c) && (c <=? 57) || (c =? 46)) uvData pre' v' -> (length pre <= length pre')%nat) /\
  (icuVersionShortOf uvData = Ok v <-> exists pre, quotedAt (lit "#define U_ICU_VERSION_SHORT """) (fun c => (48 <=? c) && (c <=? 57)) uvData pre v /\
     forall pre' v', quotedAt (lit "#define U_ICU_VERSION_SHORT """) (fun c => (48 <=? c) && (c <=? 57)) uvData pre' v' -> (length pre <= length pre')%nat).
Proof. intros uvData v. split; apply quotedFirst; reflexivity. Qed.
Print Assumptions C95_versions.

(** *** Ends of lines: a header with CR LF is read like one with LF *)
Theorem C95_line_ends : forall s, ~ In 13 s -> universal s = s /\ universal (py_replace s 10 [13; 10]) = s.
Proof.
  induction s as [|c s IH]; intros N; [split; reflexivity|]. destruct IH as [A B]; [intros I; apply N; right; exact I|]. assert (C : c <> 13) by (intros ->; apply N; left; reflexivity).
  split; cbn [universal].
  - replace (c =? 13) with false by lia. rewrite A. reflexivity.
  - unfold py_replace in *. cbn [flat_map]. destruct (c =? 10) eqn:E; cbn [app universal].
    + change (13 =? 13) with true. cbv iota. change (10 =? 10) with true. cbv iota. rewrite B. f_equal. lia.
    + replace (c =? 13) with false by lia. rewrite B. reflexivity.
Qed.
Print Assumptions C95_line_ends.

(** *** A small source tree *)
Definition nl : str := [10].
Definition line (s : string) : str := lit s ++ nl.
Definition arr (name : string) : str := lit "static const uint16_t " ++ lit name ++ line "[3]={1,2,3};".
Definition trieDecl : str := concat (map line ["a,"; "b,"; "c,"; "123,"; "d,"; "0x4,"; "0x5,"; "e,"; "f,"; "0x110000,"; "0x20,"; "NULL, 0"]).
Definition bidiText : str := arr "ubidi_props_indexes" ++ arr "ubidi_props_trieIndex" ++ arr "ubidi_props_mirrors" ++ arr "ubidi_props_jgArray" ++ arr "ubidi_props_jgArray2" ++
  line "static const UBiDiProps ubidi_props_singleton={" ++ line "  NULL," ++ line "  {" ++ trieDecl ++ line "  }," ++ line "  0" ++ line "};".
Definition charText : str := arr "propsTrie_index" ++ line "static const UTrie2 propsTrie={" ++ trieDecl ++ line "};" ++ arr "propsVectorsTrie_index" ++
  line "static const UTrie2 propsVectorsTrie={" ++ trieDecl ++ line "};" ++ arr "propsVectors" ++ line "static const int32_t propsVectorsColumns=3;" ++ arr "scriptExtensions".
Definition caseText : str := arr "ucase_props_indexes" ++ arr "ucase_props_trieIndex" ++ arr "ucase_props_exceptions" ++ arr "ucase_props_unfold" ++
  line "static const UCaseProps ucase_props_singleton={" ++ line "  NULL," ++ line "  {" ++ trieDecl ++ line "  }," ++ line "  0" ++ line "};".
Definition uvText : str := line "#define U_ICU_VERSION_SUFFIX _69" ++ line "#define U_ICU_VERSION ""69.1""" ++ line "#define U_ICU_VERSION_SHORT ""69""".
Definition pth (s : string) : path := parsePath (lit s).
(** [base]: the parent of the source directory, relative to the root; [ucd]: the file ppucd.txt; [except]: a file left out *)
Definition tree (base : string) (ucd : str) (except : string) : list (path * str) :=
  filter (fun '(p, _) => negb (path_eqb p (pth base ++ pth except)))
  (map (fun '(p, c) => (pth base ++ pth p, c))
    [("source/common/ubidi_props_data.h", bidiText); ("source/common/uchar_props_data.h", charText); ("source/common/ucase_props_data.h", caseText);
     ("source/common/uprops.h", line "#define UPROPS_A 1"); ("source/common/ucase.h", line "#define UCASE_A 1" ++ line "#define UCASECONTEXT_INITIALIZER 1");
     ("source/common/unicode/uchar.h", line "enum {" ++ line "  U_A," ++ line "  U_B=5" ++ line "};"); ("source/common/unicode/uscript.h", line "#define USCRIPT_A 1");
     ("source/common/unicode/uvernum.h", uvText); ("build/data/out/icudt69l.dat", [0; 1; 2]); ("LICENSE", lit "free"); ("source/data/unidata/ppucd.txt", ucd)]).
Definition ucdText : str := line "# comment" ++ line "ucd;13.0.0" ++ line "value;gc;Lu;Uppercase_Letter".
Definition work : path := pth "home/work".
Definition someDay : str -> str := fun _ => lit "May 6, 2021".
Definition args1 : args := mkArgs (lit "/icu/source") (lit "/icu/build") (lit "out").
Definition tree1 : fs := mkFs (tree "icu" ucdText "none") [work].
Definition tree2 : fs := snd (build work someDay evalName args1 tree1).
Example C95_case :
  throughFile tree1 (outDirOf work args1) = false /\ forallb (fun n => negb (isDir tree1 (outDirOf work args1 ++ [n]))) outputs = true /\
  path_eqb (resolve work (parent (parsePath (icuSourceDir args1)) ++ [lit "LICENSE"])) (outDirOf work args1 ++ [lit "LICENSE"]) = false /\
  fst (build work someDay evalName args1 tree1) = Ok (lit "69.1", lit "69") /\
  lookup tree2 (pth "home/work/out/icudata.dat") = Some [0; 1; 2] /\ lookup tree2 (pth "home/work/out/LICENSE") = Some (lit "free") /\
  lookup tree2 (pth "home/work/out/UnicodeVersion.py") = Some (line "unicodeVersion = ""13.0.0""") /\
  lookup tree2 (pth "home/work/out/uprops_h.py") = Some ([34; 34; 34] ++ line "/" ++ line "uprops_h.py, based on uprops.h from ICU" ++ nl ++ line "Generated by HeaderToPtyhon.py on May 6, 2021" ++ [34; 34; 34] ++ nl ++ nl ++ lit "UPROPS_A = 1") /\
  lookup tree2 (pth "home/work/out/uchar_h.py") = Some ([34; 34; 34] ++ line "/" ++ line "uchar_h.py, based on uchar.h from ICU" ++ nl ++ line "Generated by HeaderToPtyhon.py on May 6, 2021" ++ [34; 34; 34] ++ nl ++ nl ++
    line "def U_MASK(x: int) -> int: return 1<<x" ++ nl ++ line "U_A = 0" ++ lit "U_B = 5") /\
  length (files tree2) = (length (files tree1) + 11)%nat.
Proof. vm_compute. repeat split. Qed.

(** *** What does not hold *)
(** a build that fails leaves new and old outputs together *)
Theorem C95_atomic_refuted : exists f v g e h, build work someDay evalName args1 f = (Ok v, g) /\
  (** then ICU is updated, but a header is missing *)
  let g' := mkFs (map (fun '(p, c) => if path_eqb p (pth "icu/source/common/ubidi_props_data.h") then (p, bidiText ++ bidiText ++ line "static const uint16_t ubidi_props_indexes[3]={4};") else
    if path_eqb p (pth "icu/source/common/ucase_props_data.h") then (p, line "") else if path_eqb p (pth "icu/source/common/uchar_props_data.h") then (p, line "propsVectorsColumns=4;" ++ charText) else (p, c)) (files g)) (dirs g) in
  build work someDay evalName args1 g' = (Err e, h) /\
  lookup h (pth "home/work/out/CharPropsData.py") <> lookup g' (pth "home/work/out/CharPropsData.py") /\
  lookup h (pth "home/work/out/CasePropsData.py") = lookup g' (pth "home/work/out/CasePropsData.py") /\ lookup h (pth "home/work/out/CasePropsData.py") <> None.
Proof.
  exists tree1. do 4 eexists. split; [vm_compute; reflexivity|]. cbv zeta. split; [vm_compute; reflexivity|]. split; [vm_compute; discriminate|]. split; [vm_compute; reflexivity|vm_compute; discriminate].
Qed.
Print Assumptions C95_atomic_refuted.

(** the license is looked for beside the source directory; from inside it is not found *)
Theorem C95_license_refuted : exists cwd f, cwd = pth "icu/source" /\ lookup f (pth "icu/LICENSE") = Some (lit "free") /\
  (** the same directory, once by its absolute path and once as [.] *)
  resolve cwd (pth "/icu/source") = resolve cwd (pth ".") /\
  (exists v g, build cwd someDay evalName (mkArgs (lit "/icu/source") (lit "/icu/build") (lit "/out")) f = (Ok v, g)) /\
  (exists g, build cwd someDay evalName (mkArgs (lit ".") (lit "/icu/build") (lit "/out")) f = (Err FileNotFoundError, g)).
Proof.
  exists (pth "icu/source"), (mkFs (tree "icu" ucdText "none") []). split; [reflexivity|]. split; [vm_compute; reflexivity|]. split; [vm_compute; reflexivity|].
  split; [do 2 eexists; vm_compute; reflexivity|eexists; vm_compute; reflexivity].
Qed.
Print Assumptions C95_license_refuted.
(** with the parent of the source directory as output directory the license is copied to itself, which is an error *)
Theorem C95_same_refuted : exists f g, build work someDay evalName (mkArgs (lit "/icu/source") (lit "/icu/build") (lit "/icu")) f = (Err OSError, g) /\ lookup f (pth "icu/LICENSE") = Some (lit "free").
Proof. exists (mkFs (tree "icu" ucdText "none") []). eexists. split; vm_compute; reflexivity. Qed.
Print Assumptions C95_same_refuted.
(** a ppucd.txt without version is not noticed *)
Theorem C95_version_refuted : exists f v g, build work someDay evalName args1 f = (Ok v, g) /\ lookup g (pth "home/work/out/UnicodeVersion.py") = Some (line "unicodeVersion = ""None""").
Proof. exists (mkFs (tree "icu" (line "value;gc;Lu;Uppercase_Letter") "none") []). do 2 eexists. split; vm_compute; reflexivity. Qed.
Print Assumptions C95_version_refuted.

(** ** C96: installing

    In a working directory with UnicodeData and UnicodeData/Data, every Python file of the
    directory given is put into the package, and icudata.dat and LICENSE into its Data, where
    ICUDataFile.py:17 looks for it; nothing else is changed. *)
Theorem C96_install : forall cwd arg f d l, let src := resolve cwd (parsePath arg) in let pkg := cwd ++ [lit "UnicodeData"] in let data := cwd ++ [lit "UnicodeData"; lit "Data"] in
  isDir f pkg = true -> isDir f data = true -> src <> pkg -> src <> data ->
  (forall n, ends (lit ".py") n = true -> isDir f (src ++ [n]) = false /\ isDir f (pkg ++ [n]) = false) ->
  isDir f (data ++ [lit "icudata.dat"]) = false -> isDir f (data ++ [lit "LICENSE"]) = false ->
  lookup f (src ++ [lit "icudata.dat"]) = Some d -> lookup f (src ++ [lit "LICENSE"]) = Some l ->
  exists g, install cwd arg f = (Ok tt, g) /\
    (forall n c, ends (lit ".py") n = true -> lookup f (src ++ [n]) = Some c -> lookup g (pkg ++ [n]) = Some c) /\
    lookup g (data ++ [lit "icudata.dat"]) = Some d /\ lookup g (data ++ [lit "LICENSE"]) = Some l /\
    (forall p, (forall n, ends (lit ".py") n = true -> lookup f (src ++ [n]) <> None -> p <> pkg ++ [n]) -> p <> data ++ [lit "icudata.dat"] -> p <> data ++ [lit "LICENSE"] -> lookup g p = lookup f p).
Proof. intros cwd arg f d l src pkg data. exact (install_ok cwd arg f d l). Qed.
Print Assumptions C96_install.

(** a build and the installation of its outputs: the package holds what the inputs of the build say *)
Theorem C96_package : forall cwd now pyeval a f v g, let out := outDirOf cwd a in let pkg := cwd ++ [lit "UnicodeData"] in let data := cwd ++ [lit "UnicodeData"; lit "Data"] in
  throughFile f out = false -> (forall n, In n outputs -> isDir f (out ++ [n]) = false) ->
  resolve cwd (parent (parsePath (icuSourceDir a)) ++ [lit "LICENSE"]) <> out ++ [lit "LICENSE"] ->
  build cwd now pyeval a f = (Ok v, g) ->
  isDir g pkg = true -> isDir g data = true -> out <> pkg -> out <> data ->
  (forall n, ends (lit ".py") n = true -> isDir g (out ++ [n]) = false /\ isDir g (pkg ++ [n]) = false) ->
  isDir g (data ++ [lit "icudata.dat"]) = false -> isDir g (data ++ [lit "LICENSE"]) = false ->
  exists h, install cwd (outputDir a) g = (Ok tt, h) /\
    forall n i, In (n, i) (plan cwd now pyeval a) -> exists c, i (lookup f) = Ok c /\ lookup h ((if ends (lit ".py") n then pkg else data) ++ [n]) = Some c.
Proof.
  intros cwd now pyeval a f v g out pkg data. subst out pkg data. intros T D L B IP ID NP ND PY XD XL.
  destruct (C95_plan cwd now pyeval a f (Ok v) g T D L B) as (done & rest & E & F & _ & -> & _). rewrite app_nil_r in E. subst done.
  destruct (F (lit "icudata.dat") (datItem cwd a)) as (cd & ED & LD); [unfold plan; do 7 right; left; reflexivity|].
  destruct (F (lit "LICENSE") (licenseItem cwd a)) as (cl & EL & LL); [unfold plan; do 8 right; left; reflexivity|].
  destruct (C96_install cwd (outputDir a) g cd cl IP ID NP ND PY XD XL LD LL) as (h & EH & HP & HD & HL & _). exists h. split; [exact EH|]. intros n i Hi. destruct (F n i Hi) as (c & EC & LC).
  exists c. split; [exact EC|]. destruct (ends (lit ".py") n) eqn:Y; [apply HP; assumption|].
  assert (PN : forall m j, (m, j) = (n, i) -> ends (lit ".py") m = true -> False) by (intros m j Q Z; apply pair_equal_spec in Q as [-> _]; rewrite Z in Y; discriminate).
  unfold plan in Hi. cbn [In] in Hi.
  do 7 (destruct Hi as [Q|Hi]; [exfalso; exact (PN _ _ Q eq_refl)|]).
  destruct Hi as [Q|Hi]; [apply pair_equal_spec in Q as [<- <-]; rewrite ED in EC; injection EC as <-; exact HD|].
  destruct Hi as [Q|Hi]; [apply pair_equal_spec in Q as [<- <-]; rewrite EL in EC; injection EC as <-; exact HL|].
  do 2 (destruct Hi as [Q|Hi]; [exfalso; exact (PN _ _ Q eq_refl)|]). destruct Hi.
Qed.
Print Assumptions C96_package.
Definition tree3 : fs := mkFs (files tree2 ++ [(pth "home/work/UnicodeData/__init__.py", [])]) (pth "home/work/UnicodeData/Data" :: dirs tree2).
Example C96_case :
  isDir tree3 (work ++ [lit "UnicodeData"]) = true /\ isDir tree3 (work ++ [lit "UnicodeData"; lit "Data"]) = true /\
  fst (install work (lit "out") tree3) = Ok tt /\
  lookup (snd (install work (lit "out") tree3)) (pth "home/work/UnicodeData/UnicodeVersion.py") = Some (line "unicodeVersion = ""13.0.0""") /\
  lookup (snd (install work (lit "out") tree3)) (pth "home/work/UnicodeData/Data/icudata.dat") = Some [0; 1; 2] /\
  length (files (snd (install work (lit "out") tree3))) = (length (files tree3) + 11)%nat.
Proof. vm_compute. repeat split. Qed.

(** without the Data directory the data file becomes a file of that name, the license replaces it, and nothing is reported *)
Theorem C96_data_refuted : exists f g, isDir f (pth "home/work/UnicodeData") = true /\ install work (lit "out") f = (Ok tt, g) /\
  lookup g (pth "home/work/UnicodeData/Data") = Some (lit "free") /\ lookup g (pth "home/work/UnicodeData/Data/icudata.dat") = None.
Proof. exists (mkFs (files tree2 ++ [(pth "home/work/UnicodeData/__init__.py", [])]) (dirs tree2)). eexists. split; [vm_compute; reflexivity|]. split; [vm_compute; reflexivity|]. split; vm_compute; reflexivity. Qed.
Print Assumptions C96_data_refuted.
(** outside the repository the modules are written one over the other into a file UnicodeData *)
Theorem C96_directory_refuted : exists g c, install work (lit "out") tree2 = (Err OSError, g) /\ lookup tree2 (pth "home/work/UnicodeData") = None /\ lookup g (pth "home/work/UnicodeData") = Some c.
Proof. do 2 eexists. split; [vm_compute; reflexivity|]. split; vm_compute; reflexivity. Qed.
Print Assumptions C96_directory_refuted.
