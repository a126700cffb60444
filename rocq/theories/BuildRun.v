(** * [build] carries out its plan *)
From Coq Require Import ZArith List Bool Lia String.
From Verif Require Import Py Dict PyStr Utilities CharNames PyText ModuleBuilder HeaderFile BuilderArgs CsvReader UCDFacts Build BuildFacts.
Import ListNotations.
Open Scope string_scope.
Open Scope list_scope.
Open Scope Z_scope.
Local Notation length := List.length.
Local Notation concat := List.concat.

(** the errors of a missing file and of other troubles with files *)
Definition fileError (e : exn) : Prop := e = FileNotFoundError \/ e = OSError.
Definition sameError (e e' : exn) : Prop := e = e' \/ fileError e /\ fileError e'.

Lemma andThen_ok {A B} (c : M A) (k : A -> M B) x f g : c f = (Ok x, g) -> andThen c k f = k x g.
Proof. unfold andThen. intros ->. reflexivity. Qed.
Lemma andThen_err {A B} (c : M A) (k : A -> M B) e f g : c f = (Err e, g) -> andThen c k f = (Err e, g).
Proof. unfold andThen. intros ->. reflexivity. Qed.
Lemma andThen_lift {A B} (x : A) (k : A -> M B) f : andThen (lift (Ok x)) k f = k x f.
Proof. reflexivity. Qed.
Lemma andThen_lift_err {A B} e (k : A -> M B) f : andThen (lift (Err e)) k f = (Err e, f).
Proof. reflexivity. Qed.

Section Run.
  Variable cwd : path.
  Variable now : str -> str.
  Variable pyeval : str -> dict Z -> res Z.
  Variable a : args.
  Let outDir := parsePath (outputDir a).
  Let out := resolve cwd outDir.
  Notation plan := (plan cwd now pyeval a).

  (** no directory is in the way of an output, and the output directory is no file *)
  Definition clear (g : fs) : Prop := throughFile g out = false /\ forall n, In n outputs -> isDir g (out ++ [n]) = false.
  Lemma clear_mkdir g : clear g -> clear (mkdir g out) /\ isDir (mkdir g out) out = true.
  Proof.
    intros [A B]. split; [split|].
    - rewrite through_mkdir. exact A.
    - intros n Hn. rewrite isDir_mkdir, (B n Hn), prefix_longer. reflexivity.
    - rewrite isDir_mkdir, prefix_refl. apply orb_true_r.
  Qed.
  Lemma clear_put g n c : clear g -> In n outputs -> clear (put g (out ++ [n]) c).
  Proof.
    intros [A B] Hn. split.
    - rewrite through_put, A, prefix_longer. reflexivity.
    - intros m Hm. rewrite isDir_put, (B m Hm). destruct (list_eq_dec Z.eq_dec m n) as [->|D]; [rewrite path_eqb_refl; apply andb_false_r|]. rewrite prefix_sibling by exact D. reflexivity.
  Qed.
  Lemma out_put g p c : isDir g out = true -> isDir (put g p c) out = true.
  Proof. intros H. rewrite isDir_put, H. reflexivity. Qed.
  Lemma write_ok g n c : clear g -> isDir g out = true -> In n outputs -> writeAt (out ++ [n]) c g = (Ok tt, put g (out ++ [n]) c).
  Proof. intros [A B] D Hn. unfold writeAt. rewrite (B n Hn), removelast_snoc, D. reflexivity. Qed.
  Lemma makedirs_ok g : clear g -> makedirs cwd outDir g = (Ok tt, mkdir g out).
  Proof. intros [A B]. unfold makedirs. fold out. rewrite A. reflexivity. Qed.
  Lemma readRaw_get p g : exists r, readRaw cwd p g = (r, g) /\ match getRaw cwd (lookup g) p with Ok c => r = Ok c | Err e => exists e', r = Err e' /\ sameError e e' end.
  Proof.
    unfold readRaw, getRaw. eexists. split; [reflexivity|]. destruct (lookup g (resolve cwd p)) as [c|]; [reflexivity|].
    destruct (isDir g (resolve cwd p) || throughFile g (resolve cwd p)); eexists; (split; [reflexivity|right; unfold fileError; auto]).
  Qed.
  Lemma readText_get p g : exists r, readText cwd p g = (r, g) /\ match getText cwd (lookup g) p with Ok c => r = Ok c | Err e => exists e', r = Err e' /\ sameError e e' end.
  Proof.
    unfold readText, getText, andThen. destruct (readRaw_get p g) as (r & E & H). rewrite E. destruct (getRaw cwd (lookup g) p) as [c|e]; cbn [bind].
    - subst r. eexists. split; reflexivity.
    - destruct H as (e' & -> & H). eexists. split; [reflexivity|]. exists e'. auto.
  Qed.

  (** a command that makes one output *)
  Definition does {A} (need : bool) (n : str) (item : view -> res str) (val : view -> A -> Prop) (c : M A) : Prop :=
    forall g, clear g -> (need = true -> isDir g out = true) -> exists g0, clear g0 /\ isDir g0 out = true /\ (forall p, lookup g0 p = lookup g p) /\
      match item (lookup g) with
      | Ok s => exists v, val (lookup g) v /\ c g = (Ok v, put g0 (out ++ [n]) s)
      | Err e => exists e', sameError e e' /\ c g = (Err e', g0)
      end.
  Lemma outName_resolve name : plainb name = true -> parsePath name = [name] -> resolve cwd (joinPath outDir name) = out ++ [name].
  Proof. intros P E. unfold joinPath. rewrite E, resolve_app; [reflexivity|]. constructor; [apply plainb_ok; exact P|constructor]. Qed.
  Lemma does_module src name ps : plainb name = true -> parsePath name = [name] -> In name outputs ->
    does false name (moduleItem cwd now a src name ps) (fun _ _ => True) (buildModule cwd now (parsePath (icuSourceDir a)) src outDir name ps).
  Proof.
    intros P E I g C _. destruct (clear_mkdir g C) as [C0 D0]. exists (mkdir g out). split; [exact C0|]. split; [exact D0|]. split; [reflexivity|].
    unfold buildModule, moduleItem. rewrite (andThen_ok _ _ _ _ _ (makedirs_ok g C)).
    destruct (readText_get (joinPath (parsePath (icuSourceDir a)) src) (mkdir g out)) as (r & ER & H). change (lookup (mkdir g out)) with (lookup g) in H.
    destruct (getText cwd (lookup g) (joinPath (parsePath (icuSourceDir a)) src)) as [s|e]; cbn [bind].
    - subst r. rewrite (andThen_ok _ _ _ _ _ ER). destruct (partsLines s ps) as [lines|e]; cbn [bind]; rewrite ?andThen_lift, ?andThen_lift_err.
      + exists tt. split; [exact Logic.I|]. unfold write. rewrite (outName_resolve name P E). apply write_ok; assumption.
      + exists e. split; [left; reflexivity|reflexivity].
    - destruct H as (e' & -> & H). rewrite (andThen_err _ _ _ _ _ ER). exists e'. split; [exact H|reflexivity].
  Qed.
  Lemma does_header src fromName name guard extra ignore : pathName (joinPath (parsePath (icuSourceDir a)) src) = fromName -> headerName fromName ++ lit ".py" = name -> upper (headerName fromName) = guard ->
    plainb name = true -> parsePath name = [name] -> In name outputs ->
    does false name (headerItem cwd now pyeval a src guard name extra ignore) (fun _ _ => True) (buildHeader cwd now pyeval (parsePath (icuSourceDir a)) src outDir extra ignore).
  Proof.
    intros F N G P E I g C _. destruct (clear_mkdir g C) as [C0 D0]. exists (mkdir g out). split; [exact C0|]. split; [exact D0|]. split; [reflexivity|].
    unfold buildHeader, headerItem. rewrite (andThen_ok _ _ _ _ _ (makedirs_ok g C)).
    destruct (readText_get (joinPath (parsePath (icuSourceDir a)) src) (mkdir g out)) as (r & ER & H). change (lookup (mkdir g out)) with (lookup g) in H. rewrite F, N, G.
    destruct (getText cwd (lookup g) (joinPath (parsePath (icuSourceDir a)) src)) as [s|e]; cbn [bind].
    - subst r. rewrite (andThen_ok _ _ _ _ _ ER). destruct (translate guard pyeval ignore (textLines s)) as [lines|e]; cbn [bind]; rewrite ?andThen_lift, ?andThen_lift_err.
      + exists tt. split; [exact Logic.I|]. unfold write. rewrite (outName_resolve name P E). apply write_ok; assumption.
      + exists e. split; [left; reflexivity|reflexivity].
    - destruct H as (e' & -> & H). rewrite (andThen_err _ _ _ _ _ ER). exists e'. split; [exact H|reflexivity].
  Qed.
  (** [shutil.copy] of another file to an output *)
  Lemma copy_file g src name : clear g -> isDir g out = true -> In name outputs -> plainb name = true -> parsePath name = [name] -> resolve cwd src <> out ++ [name] ->
    exists e', copy cwd src (joinPath outDir name) g = match getRaw cwd (lookup g) src with Ok s => (Ok tt, put g (out ++ [name]) s) | Err _ => (Err e', g) end /\
      forall e, getRaw cwd (lookup g) src = Err e -> sameError e e'.
  Proof.
    intros C D I P E N. unfold copy, andThen. destruct (readRaw_get src g) as (r & -> & H). destruct (getRaw cwd (lookup g) src) as [s|e].
    - subst r. exists OSError. split; [|discriminate]. rewrite (outName_resolve name P E). rewrite (proj2 C name I). rewrite path_eqb_neq by exact N. apply write_ok; assumption.
    - destruct H as (e' & -> & H). exists e'. split; [reflexivity|]. intros e0 [= <-]. exact H.
  Qed.
  Lemma copy_into g src : clear g -> isDir g out = true -> In (pathName src) outputs -> resolve cwd src <> out ++ [pathName src] ->
    exists e', copy cwd src outDir g = match getRaw cwd (lookup g) src with Ok s => (Ok tt, put g (out ++ [pathName src]) s) | Err _ => (Err e', g) end /\
      forall e, getRaw cwd (lookup g) src = Err e -> sameError e e'.
  Proof.
    intros C D I N. unfold copy, andThen. destruct (readRaw_get src g) as (r & -> & H). destruct (getRaw cwd (lookup g) src) as [s|e].
    - subst r. exists OSError. split; [|discriminate]. fold out. rewrite D. rewrite path_eqb_neq by exact N. apply write_ok; assumption.
    - destruct H as (e' & -> & H). exists e'. split; [reflexivity|]. intros e0 [= <-]. exact H.
  Qed.
  (** the versions and the data file *)
  Definition datCmd : M (str * str) :=
    let! uvData := readText cwd (joinPath (parsePath (icuSourceDir a)) (lit "common/unicode/uvernum.h")) in
    let! icuVersion := lift (icuVersionOf uvData) in
    let! icuVersionShort := lift (icuVersionShortOf uvData) in
    let! _ := copy cwd (datPath a icuVersionShort) (joinPath outDir (lit "icudata.dat")) in
    ret (icuVersion, icuVersionShort).
  Lemma out_in n : existsb (str_eqb n) outputs = true -> In n outputs.
  Proof. intros H. apply existsb_exists in H as (m & Hm & E). apply str_eqb_eq in E. subst m. exact Hm. Qed.
  Lemma snoc_neq (p q : path) n m : n <> m -> p ++ [n] <> q ++ [m].
  Proof. intros H E. apply app_inj_tail in E. destruct E. contradiction. Qed.
  Lemma does_dat : does true (lit "icudata.dat") (datItem cwd a) (fun look v => versions cwd a look = Ok v) datCmd.
  Proof.
    intros g C D. specialize (D eq_refl). exists g. split; [exact C|]. split; [exact D|]. split; [reflexivity|].
    pose proof (versions_short cwd a (lookup g)) as W. unfold datCmd, datItem, versions in *.
    destruct (readText_get (joinPath (parsePath (icuSourceDir a)) (lit "common/unicode/uvernum.h")) g) as (r & ER & H).
    destruct (getText cwd (lookup g) (joinPath (parsePath (icuSourceDir a)) (lit "common/unicode/uvernum.h"))) as [s|e]; cbn [bind] in *.
    2:{ destruct H as (e' & -> & H). rewrite (andThen_err _ _ _ _ _ ER). exists e'. split; [exact H|reflexivity]. }
    subst r. rewrite (andThen_ok _ _ _ _ _ ER). destruct (icuVersionOf s) as [v|e]; cbn [bind] in *; rewrite ?andThen_lift, ?andThen_lift_err; [|exists e; split; [left; reflexivity|reflexivity]].
    destruct (icuVersionShortOf s) as [w|e]; cbn [bind] in *; rewrite ?andThen_lift, ?andThen_lift_err; [|exists e; split; [left; reflexivity|reflexivity]].
    specialize (W v w eq_refl).
    assert (N : resolve cwd (datPath a w) <> out ++ [lit "icudata.dat"]).
    { rewrite (dat_path now pyeval), app_assoc by exact W. rewrite resolve_app; [|constructor; [apply dat_name|constructor]]. apply snoc_neq. intros E. apply (f_equal (firstn 5)) in E. discriminate. }
    destruct (copy_file g (datPath a w) (lit "icudata.dat") C D) as (e' & EC & HE); [apply out_in; vm_compute; reflexivity|vm_compute; reflexivity|vm_compute; reflexivity|exact N|].
    destruct (getRaw cwd (lookup g) (datPath a w)) as [c|e]; [rewrite (andThen_ok _ _ _ _ _ EC)|rewrite (andThen_err _ _ _ _ _ EC)].
    - exists (v, w). split; [reflexivity|reflexivity].
    - exists e'. split; [apply HE; reflexivity|reflexivity].
  Qed.
  Lemma does_license : resolve cwd (licensePath a) <> out ++ [lit "LICENSE"] -> does true (lit "LICENSE") (licenseItem cwd a) (fun _ _ => True) (copy cwd (licensePath a) outDir).
  Proof.
    intros N g C D. specialize (D eq_refl). exists g. split; [exact C|]. split; [exact D|]. split; [reflexivity|].
    assert (E : pathName (licensePath a) = lit "LICENSE") by (apply (last_snoc (parent (parsePath (icuSourceDir a))) (lit "LICENSE") [])).
    destruct (copy_into g (licensePath a) C D) as (e' & EC & HE); [rewrite E; apply out_in; vm_compute; reflexivity|rewrite E; exact N|]. rewrite EC, E. unfold licenseItem.
    destruct (getRaw cwd (lookup g) (licensePath a)) as [c|e].
    - exists tt. split; [exact Logic.I|reflexivity].
    - exists e'. split; [apply HE; reflexivity|reflexivity].
  Qed.
  Lemma does_types : does true (lit "UCDTypeDictionaries.py") (typesItem cwd now a) (fun look v => exists l, dictionaries cwd a look = Ok (v, l)) (buildUCD cwd now (parsePath (icuSourceDir a)) outDir).
  Proof.
    intros g C D. specialize (D eq_refl). exists g. split; [exact C|]. split; [exact D|]. split; [reflexivity|].
    unfold buildUCD, typesItem, dictionaries.
    destruct (readRaw_get (joinPath (parsePath (icuSourceDir a)) (lit "data/unidata/ppucd.txt")) g) as (r & ER & H).
    destruct (getRaw cwd (lookup g) (joinPath (parsePath (icuSourceDir a)) (lit "data/unidata/ppucd.txt"))) as [s|e]; cbn [bind] in *.
    2:{ destruct H as (e' & -> & H). rewrite (andThen_err _ _ _ _ _ ER). exists e'. split; [exact H|reflexivity]. }
    subst r. rewrite (andThen_ok _ _ _ _ _ ER). destruct (csvRows s) as [rows|e]; cbn [bind]; rewrite ?andThen_lift, ?andThen_lift_err; [|exists e; split; [left; reflexivity|reflexivity]].
    destruct (generateDictionaries rows) as [[v l]|e]; cbn [bind]; rewrite ?andThen_lift, ?andThen_lift_err; [|exists e; split; [left; reflexivity|reflexivity]].
    replace (pathName (joinPath outDir (lit "UCDTypeDictionaries.py"))) with (lit "UCDTypeDictionaries.py") by (symmetry; apply (last_snoc outDir (lit "UCDTypeDictionaries.py") [])).
    replace (pathName (joinPath (parsePath (icuSourceDir a)) (lit "data/unidata/ppucd.txt"))) with (lit "ppucd.txt")
      by (symmetry; unfold pathName, joinPath; change (parsePath (lit "data/unidata/ppucd.txt")) with ([lit "data"; lit "unidata"] ++ [lit "ppucd.txt"]); rewrite app_assoc; apply last_snoc).
    destruct (writeFile _ l) as [contents|e]; rewrite ?andThen_lift, ?andThen_lift_err; [|exists e; split; [left; reflexivity|reflexivity]].
    exists v. split; [exists l; reflexivity|]. unfold andThen, write. rewrite (outName_resolve (lit "UCDTypeDictionaries.py")) by (vm_compute; reflexivity).
    rewrite write_ok; [reflexivity|exact C|exact D|apply out_in; vm_compute; reflexivity].
  Qed.

  (** ** Progress *)
  Variable f : fs.
  Hypothesis license_elsewhere : resolve cwd (licensePath a) <> out ++ [lit "LICENSE"].
  (** the outputs of [done] are made from the inputs in [f], all else is as in [f] *)
  Definition progress (done : list (str * (view -> res str))) (g : fs) : Prop :=
    clear g /\ Forall (fun i => exists c, snd i (lookup f) = Ok c /\ lookup g (out ++ [fst i]) = Some c) done /\
    (forall p, (forall n, In n (map fst done) -> p <> out ++ [n]) -> lookup g p = lookup f p).
  (** the plan is carried out up to its end or to the first item that cannot be made *)
  Definition carriedOut (x : res (str * str) * fs) : Prop :=
    exists done rest, plan = done ++ rest /\ progress done (snd x) /\
    match fst x with
    | Ok v => rest = [] /\ versions cwd a (lookup f) = Ok v
    | Err e' => exists n i r e, rest = (n, i) :: r /\ i (lookup f) = Err e /\ sameError e e'
    end.
  Lemma progress_agree done rest g : plan = done ++ rest -> progress done g -> agree cwd a (lookup f) (lookup g).
  Proof.
    intros E (C & F & H). split.
    - intros p n Hn. symmetry. apply H. intros m Hm. apply snoc_neq. intros ->. apply Hn. rewrite <- (plan_names cwd now pyeval a), E, map_app. apply in_or_app. left. exact Hm.
    - symmetry. apply H. intros n Hn. destruct (list_eq_dec Z.eq_dec n (lit "LICENSE")) as [->|D]; [exact license_elsewhere|].
      unfold licensePath, joinPath. change (parsePath (lit "LICENSE")) with [lit "LICENSE"]. rewrite resolve_app; [|constructor; [split; discriminate|constructor]]. apply snoc_neq. congruence.
  Qed.
  Lemma progress_put done n i rest g s : plan = done ++ (n, i) :: rest -> progress done g -> i (lookup f) = Ok s -> progress (done ++ [(n, i)]) (put g (out ++ [n]) s).
  Proof.
    intros E (C & F & H) V. assert (ND : ~ In n (map fst done) /\ In n outputs).
    { pose proof (outputs_nodup) as ND. rewrite <- (plan_names cwd now pyeval a), E, map_app in *. cbn [map fst] in *. split; [|apply in_or_app; right; left; reflexivity].
      apply NoDup_remove_2 in ND. intros I. apply ND. apply in_or_app. left. exact I. }
    destruct ND as [ND I]. split; [apply clear_put; assumption|]. split.
    - apply Forall_app. split.
      + apply Forall_forall. intros j Hj. rewrite Forall_forall in F. destruct (F j Hj) as (c & A & B). exists c. split; [exact A|]. rewrite lookup_put, path_eqb_neq; [exact B|].
        apply snoc_neq. intros ->. apply ND. apply in_map. exact Hj.
      + constructor; [|constructor]. exists s. cbn [fst snd]. split; [exact V|]. rewrite lookup_put, path_eqb_refl. reflexivity.
    - intros p Hp. rewrite map_app in Hp. rewrite lookup_put, path_eqb_neq.
      + apply H. intros m Hm. apply Hp. apply in_or_app. left. exact Hm.
      + intros E2. apply (Hp n); [apply in_or_app; right; left; reflexivity|congruence].
  Qed.
  Lemma step {A} need n i (val : view -> A -> Prop) (c : M A) k done rest g : does need n i val c -> progress done g -> plan = done ++ (n, i) :: rest -> (need = true -> isDir g out = true) ->
    (forall v g', val (lookup g) v -> agree cwd a (lookup f) (lookup g) -> progress (done ++ [(n, i)]) g' -> isDir g' out = true -> carriedOut (k v g')) -> carriedOut (andThen c k g).
  Proof.
    intros Dc P E D K. pose proof (progress_agree _ _ g E P) as AG. destruct (Dc g (proj1 P) D) as (g0 & C0 & D0 & L0 & R).
    assert (P0 : progress done g0).
    { destruct P as (C & F & H). split; [exact C0|]. split.
      - apply Forall_forall. intros j Hj. rewrite Forall_forall in F. destruct (F j Hj) as (s & A1 & B1). exists s. rewrite L0. auto.
      - intros p Hp. rewrite L0. apply H. exact Hp. }
    assert (EI : i (lookup f) = i (lookup g)).
    { pose proof (agree_plan cwd now pyeval a _ _ AG) as FP. rewrite Forall_forall in FP. apply (FP (n, i)). rewrite E. apply in_or_app. right. left. reflexivity. }
    unfold andThen. rewrite <- EI in R. destruct (i (lookup f)) as [s|e] eqn:V.
    - destruct R as (v & Hv & ->). apply K; [exact Hv|exact AG| |apply out_put; exact D0]. eapply progress_put; eassumption.
    - destruct R as (e' & S1 & ->). exists done, ((n, i) :: rest). split; [exact E|]. split; [exact P0|]. cbn [fst]. exists n, i, rest, e. auto.
  Qed.
  Lemma andThen_dat (k : str * str -> M (str * str)) g :
    (let! uvData := readText cwd (joinPath (parsePath (icuSourceDir a)) (lit "common/unicode/uvernum.h")) in
     let! icuVersion := lift (icuVersionOf uvData) in
     let! icuVersionShort := lift (icuVersionShortOf uvData) in
     let! _ := copy cwd (joinPath (parsePath (icuBuildDir a)) (lit "data/out/icudt" ++ icuVersionShort ++ lit "l.dat")) (joinPath outDir (lit "icudata.dat")) in
     k (icuVersion, icuVersionShort)) g = andThen datCmd k g.
  Proof.
    unfold datCmd, andThen, lift, ret. destruct (readText cwd _ g) as [[s|e] g1]; [|reflexivity]. destruct (icuVersionOf s) as [v|e]; [|reflexivity]. destruct (icuVersionShortOf s) as [w|e]; [|reflexivity].
    unfold datPath. destruct (copy cwd _ _ g1) as [[u|e] g2]; reflexivity.
  Qed.
  Lemma build_carriedOut : clear f -> carriedOut (build cwd now pyeval a f).
  Proof.
    intros C. assert (P : progress [] f) by (split; [exact C|]; split; [constructor|reflexivity]). unfold build. fold outDir.
    assert (HN : forall s q n, parsePath s = q ++ [n] -> pathName (joinPath (parsePath (icuSourceDir a)) s) = n).
    { intros s q n E. unfold pathName, joinPath. rewrite E, app_assoc. apply last_snoc. }
    eapply step; [apply does_module; [vm_compute; reflexivity|vm_compute; reflexivity|apply out_in; vm_compute; reflexivity]|exact P|reflexivity|discriminate|]. clear P. intros _ g1 _ _ P D. cbn [app] in P.
    eapply step; [apply does_module; [vm_compute; reflexivity|vm_compute; reflexivity|apply out_in; vm_compute; reflexivity]|exact P|reflexivity|discriminate|]. clear P D. intros _ g2 _ _ P D. cbn [app] in P.
    eapply step; [apply does_module; [vm_compute; reflexivity|vm_compute; reflexivity|apply out_in; vm_compute; reflexivity]|exact P|reflexivity|discriminate|]. clear P D. intros _ g3 _ _ P D. cbn [app] in P.
    eapply step; [apply (does_header (lit "common/uprops.h") (lit "uprops.h") (lit "uprops_h.py") (lit "UPROPS_H") [] []);
      [apply (HN _ [lit "common"]); vm_compute; reflexivity|vm_compute; reflexivity|vm_compute; reflexivity|vm_compute; reflexivity|vm_compute; reflexivity|apply out_in; vm_compute; reflexivity]|exact P|reflexivity|discriminate|].
    clear P D. intros _ g4 _ _ P D. cbn [app] in P.
    eapply step; [apply (does_header (lit "common/ucase.h") (lit "ucase.h") (lit "ucase_h.py") (lit "UCASE_H") [] [lit "UCASECONTEXT_INITIALIZER"]);
      [apply (HN _ [lit "common"]); vm_compute; reflexivity|vm_compute; reflexivity|vm_compute; reflexivity|vm_compute; reflexivity|vm_compute; reflexivity|apply out_in; vm_compute; reflexivity]|exact P|reflexivity|discriminate|].
    clear P D. intros _ g5 _ _ P D. cbn [app] in P.
    eapply step; [apply (does_header (lit "common/unicode/uchar.h") (lit "uchar.h") (lit "uchar_h.py") (lit "UCHAR_H") maskCode [lit "U_NO_NUMERIC_VALUE"]);
      [apply (HN _ [lit "common"; lit "unicode"]); vm_compute; reflexivity|vm_compute; reflexivity|vm_compute; reflexivity|vm_compute; reflexivity|vm_compute; reflexivity|apply out_in; vm_compute; reflexivity]|exact P|reflexivity|discriminate|].
    clear P D. intros _ g6 _ _ P D. cbn [app] in P.
    eapply step; [apply (does_header (lit "common/unicode/uscript.h") (lit "uscript.h") (lit "uscript_h.py") (lit "USCRIPT_H") [] []);
      [apply (HN _ [lit "common"; lit "unicode"]); vm_compute; reflexivity|vm_compute; reflexivity|vm_compute; reflexivity|vm_compute; reflexivity|vm_compute; reflexivity|apply out_in; vm_compute; reflexivity]|exact P|reflexivity|discriminate|].
    clear P D. intros _ g7 _ _ P D. cbn [app] in P.
    pose (K := fun vw : str * str => let! _ := copy cwd (licensePath a) outDir in let! ucdVersion := buildUCD cwd now (parsePath (icuSourceDir a)) outDir in
      let! _ := write cwd (joinPath outDir (lit "UnicodeVersion.py")) (versionText ucdVersion) in ret (fst vw, snd vw)).
    match goal with |- carriedOut ?X => replace X with (andThen datCmd K g7) by (symmetry; apply (andThen_dat K)) end.
    eapply step; [apply does_dat|exact P|reflexivity|intros _; exact D|]. clear P D. intros [v w] g8 HV AG P D. cbn [app] in P. rewrite <- (agree_versions cwd a _ _ AG) in HV. clear AG. unfold K. cbn [fst snd]. clear K.
    eapply step; [apply (does_license license_elsewhere)|exact P|reflexivity|intros _; exact D|]. clear P D. intros _ g9 _ _ P D. cbn [app] in P.
    eapply step; [apply does_types|exact P|reflexivity|intros _; exact D|]. clear P D. intros ucd g10 HU AG P D. cbn [app] in P. destruct HU as (l & HU). rewrite <- (agree_dictionaries cwd a _ _ AG) in HU. clear AG.
    assert (EV : versionItem cwd a (lookup f) = Ok (versionText ucd)) by (unfold versionItem; rewrite HU; reflexivity).
    unfold andThen, write. rewrite (outName_resolve (lit "UnicodeVersion.py")) by (vm_compute; reflexivity). rewrite write_ok by (first [exact (proj1 P)|exact D|apply out_in; vm_compute; reflexivity]).
    unfold ret. eexists. exists []. split; [rewrite app_nil_r; reflexivity|]. cbn [fst snd]. split; [|split; [reflexivity|exact HV]].
    eapply (progress_put _ (lit "UnicodeVersion.py") (versionItem cwd a) []) in P; [exact P|reflexivity|exact EV].
  Qed.
End Run.

(** ** Files that are not touched *)
Section Tame.
  (** the paths that may be written *)
  Variable W : path -> Prop.
  Definition tame {A} (c : M A) : Prop := forall f p, ~ W p -> lookup (snd (c f)) p = lookup f p.
  Lemma tame_bind {A B} (c : M A) (k : A -> M B) : tame c -> (forall x, tame (k x)) -> tame (andThen c k).
  Proof. intros C K f p N. unfold andThen. specialize (C f p N). destruct (c f) as [[x|e] g]; cbn [snd] in *; [rewrite K by exact N|]; exact C. Qed.
  Lemma tame_lift {A} (x : res A) : tame (lift x). Proof. intros f p N. reflexivity. Qed.
  Lemma tame_ret {A} (x : A) : tame (ret x). Proof. intros f p N. reflexivity. Qed.
  Lemma tame_raw cwd q : tame (readRaw cwd q). Proof. intros f p N. reflexivity. Qed.
  Lemma tame_text cwd q : tame (readText cwd q). Proof. apply tame_bind; [apply tame_raw|intros; apply tame_ret]. Qed.
  Lemma tame_mkdirs cwd q : tame (makedirs cwd q). Proof. intros f p N. unfold makedirs. destruct (throughFile f (resolve cwd q)); reflexivity. Qed.
  Lemma tame_writeAt q c : W q -> tame (writeAt q c).
  Proof. intros H f p N. unfold writeAt. destruct (isDir f q); [reflexivity|]. destruct (isDir f (removelast q)); [|reflexivity]. cbn [snd]. fold (put f q c). rewrite lookup_put, path_eqb_neq; [reflexivity|congruence]. Qed.
  Lemma tame_copy cwd src dst : W (resolve cwd dst) -> W (resolve cwd dst ++ [pathName src]) -> tame (copy cwd src dst).
  Proof.
    intros A B. apply tame_bind; [apply tame_raw|]. intros c f p N. cbv beta zeta. destruct (path_eqb _ _); [reflexivity|].
    destruct (isDir f (resolve cwd dst)); apply tame_writeAt; assumption.
  Qed.
  Lemma tame_copyInto cwd src dst f p : isDir f (resolve cwd dst) = true -> W (resolve cwd dst ++ [pathName src]) -> ~ W p -> lookup (snd (copy cwd src dst f)) p = lookup f p.
  Proof.
    intros D B N. unfold copy, andThen, readRaw. destruct (match lookup f _ with Some c => _ | None => _ end) as [c|e]; [|reflexivity]. rewrite D.
    destruct (path_eqb _ _); [reflexivity|]. apply tame_writeAt; assumption.
  Qed.
End Tame.

(** ** install *)
Lemma nodup_in l : forall x, In x (nodupStr l) <-> In x l.
Proof.
  induction l as [|y l IH]; intros x; [reflexivity|]. cbn [nodupStr]. destruct (existsb (str_eqb y) l) eqn:E.
  - rewrite IH. split; [right; assumption|]. intros [->|H]; [|exact H]. apply existsb_exists in E as (z & Hz & E). apply str_eqb_eq in E. subst z. exact Hz.
  - cbn [In]. rewrite IH. reflexivity.
Qed.
Lemma below_in d p n : In n (below d p) <-> exists r, p = d ++ n :: r.
Proof.
  unfold below. destruct (prefix d p) eqn:E.
  - apply prefix_iff in E as (r & ->). rewrite skipn_app, skipn_all, Nat.sub_diag. cbn [app skipn]. destruct r as [|m r].
    + split; [intros []|]. intros (r & E). apply app_inv_head in E. discriminate.
    + split; [intros [->|[]]; exists r; reflexivity|]. intros (r' & E). apply app_inv_head in E. left. congruence.
  - split; [intros []|]. intros (r & ->). assert (prefix d (d ++ n :: r) = true) by (apply prefix_iff; eexists; reflexivity). congruence.
Qed.
Lemma findFile_in l p : (exists c, In (p, c) l) -> exists c, findFile l p = Some c.
Proof.
  induction l as [|[q d] l IH]; intros (c & H); [destruct H|]. cbn [findFile]. destruct (path_eqb q p) eqn:E; [eexists; reflexivity|]. apply IH. destruct H as [[= -> ->]|H]; [rewrite path_eqb_refl in E; discriminate|]. exists c. exact H.
Qed.
Lemma findFile_some l p c : findFile l p = Some c -> In (p, c) l.
Proof. induction l as [|[q d] l IH]; [discriminate|]. cbn [findFile]. destruct (path_eqb q p) eqn:E; [apply path_eqb_eq in E; intros [= ->]; left; congruence|right; auto]. Qed.
(** where no such name is a directory, the children are the files *)
Lemma child_file f d n : isDir f (d ++ [n]) = false -> In n (children f d) <-> exists c, lookup f (d ++ [n]) = Some c.
Proof.
  intros D. unfold children. rewrite nodup_in, in_app_iff, !in_flat_map. split.
  - assert (D2 : existsb (prefix (d ++ [n])) (dirs f) || existsb (fun '(q, _) => prefix (d ++ [n]) q && negb (path_eqb (d ++ [n]) q)) (files f) = false) by (unfold isDir in D; destruct (d ++ [n]) eqn:E; [destruct d; discriminate|exact D]).
    apply orb_false_iff in D2 as [D1 D2]. intros [([q c] & Hq & Hn)|(q & Hq & Hn)].
    + apply below_in in Hn as (r & ->). destruct r as [|x r]; [apply findFile_in; exists c; exact Hq|]. exfalso.
      enough (existsb (fun '(q, _) => prefix (d ++ [n]) q && negb (path_eqb (d ++ [n]) q)) (files f) = true) by congruence. apply existsb_exists. eexists. split; [exact Hq|]. cbv beta iota. apply andb_true_iff. split.
      * apply prefix_iff. exists (x :: r). rewrite <- app_assoc. reflexivity.
      * rewrite path_eqb_neq; [reflexivity|]. intros E. apply app_inv_head in E. discriminate.
    + apply below_in in Hn as (r & ->). exfalso. enough (existsb (prefix (d ++ [n])) (dirs f) = true) by congruence. apply existsb_exists. eexists. split; [exact Hq|]. apply prefix_iff. exists r. rewrite <- app_assoc. reflexivity.
  - intros (c & H). left. apply findFile_some in H. exists (d ++ [n], c). split; [exact H|]. apply below_in. exists []. reflexivity.
Qed.

Lemma isDir_prefix f d q : isDir f d = true -> prefix q d = true -> isDir f q = true.
Proof.
  intros D P. apply prefix_iff in P as (r & ->). destruct q as [|y q]; [reflexivity|]. unfold isDir in *. cbn [app] in D. change (y :: q ++ r) with ((y :: q) ++ r) in D. apply orb_true_iff in D as [D|D]; apply orb_true_iff.
  - left. apply existsb_exists in D as (d & Hd & D). apply existsb_exists. exists d. split; [exact Hd|]. apply prefix_iff in D as (t & ->). apply prefix_iff. exists (r ++ t). rewrite <- app_assoc. reflexivity.
  - right. apply existsb_exists in D as ([d w] & Hd & D). apply existsb_exists. exists (d, w). split; [exact Hd|]. apply andb_true_iff in D as [D1 D2]. apply prefix_iff in D1 as (t & ->). apply andb_true_iff. split.
    + apply prefix_iff. exists (r ++ t). rewrite <- app_assoc. reflexivity.
    + rewrite path_eqb_neq; [reflexivity|]. intros Q. rewrite <- app_assoc in Q. rewrite <- (app_nil_r (y :: q)) in Q at 1. apply app_inv_head in Q. symmetry in Q. apply app_eq_nil in Q as [-> ->].
      rewrite !app_nil_r, path_eqb_refl in D2. discriminate.
Qed.
(** a file put into a directory makes no directory *)
Lemma isDir_put_in f d n c q : isDir f d = true -> isDir (put f (d ++ [n]) c) q = isDir f q.
Proof.
  intros D. rewrite isDir_put. destruct (prefix q (d ++ [n])) eqn:PQ; [|apply orb_false_r]. apply prefix_iff in PQ as (r & PQ). destruct r as [|x r _] using rev_ind.
  - rewrite app_nil_r in PQ. subst q. rewrite path_eqb_refl. apply orb_false_r.
  - rewrite app_assoc in PQ. apply app_inj_tail in PQ as [PQ _]. enough (isDir f q = true) as -> by reflexivity. apply (isDir_prefix f d); [exact D|]. apply prefix_iff. exists r. exact PQ.
Qed.

Section Install.
  Variable cwd : path.
  Variable arg : str.
  Let src := resolve cwd (parsePath arg).
  Definition package : path := cwd ++ [lit "UnicodeData"].
  Definition packageData : path := cwd ++ [lit "UnicodeData"; lit "Data"].
  Lemma package_resolve : resolve cwd (parsePath (lit "UnicodeData")) = package.
  Proof. reflexivity. Qed.
  Lemma packageData_resolve : resolve cwd (joinPath (parsePath (lit "UnicodeData")) (lit "Data")) = packageData.
  Proof.
    change (joinPath (parsePath (lit "UnicodeData")) (lit "Data")) with ([] ++ [lit "UnicodeData"; lit "Data"]). rewrite resolve_app; [reflexivity|].
    constructor; [split; discriminate|]. constructor; [split; discriminate|constructor].
  Qed.
  Lemma copy_to f s d n c : resolve cwd s = src ++ [n] -> pathName s = n -> lookup f (src ++ [n]) = Some c -> isDir f (resolve cwd d) = true -> src <> resolve cwd d -> isDir f (resolve cwd d ++ [n]) = false ->
    copy cwd s d f = (Ok tt, put f (resolve cwd d ++ [n]) c).
  Proof.
    intros R N L D E X. unfold copy, andThen, readRaw. rewrite R, L, D, N. rewrite path_eqb_neq by (intros Q; apply app_inj_tail in Q; destruct Q; contradiction).
    unfold writeAt. rewrite X, removelast_snoc, D. reflexivity.
  Qed.
  Lemma py_plain n : ends (lit ".py") n = true -> plain n.
  Proof. intros H. split; intros ->; vm_compute in H; discriminate. Qed.
  Lemma dir_put_file f p q c : isDir f q = false -> prefix q p = false \/ p = q -> isDir (put f p c) q = false.
  Proof. intros D H. rewrite isDir_put, D. destruct H as [->| ->]; [reflexivity|]. rewrite path_eqb_refl. apply andb_false_r. Qed.

  Lemma copyAll_ok ns : forall f, isDir f package = true -> src <> package ->
    (forall n, In n ns -> ends (lit ".py") n = true /\ isDir f (package ++ [n]) = false /\ exists c, lookup f (src ++ [n]) = Some c) ->
    exists g, copyAll cwd (map (fun n => parsePath arg ++ [n]) ns) (parsePath (lit "UnicodeData")) f = (Ok tt, g) /\
      (forall n, In n ns -> lookup g (package ++ [n]) = lookup f (src ++ [n])) /\ (forall p, (forall n, In n ns -> p <> package ++ [n]) -> lookup g p = lookup f p) /\
      (forall q, isDir g q = isDir f q).
  Proof.
    induction ns as [|n ns IH]; intros f D E H; cbn [map copyAll].
    - exists f. repeat split; auto. intros n [].
    - destruct (H n (or_introl eq_refl)) as (Py & X & c & L).
      assert (R : resolve cwd (parsePath arg ++ [n]) = src ++ [n]) by (apply resolve_app; constructor; [apply py_plain; exact Py|constructor]).
      rewrite (andThen_ok _ _ _ _ _ (copy_to f (parsePath arg ++ [n]) (parsePath (lit "UnicodeData")) n c R (last_snoc _ _ _) L D E X)). rewrite package_resolve.
      assert (DS : forall q, isDir (put f (package ++ [n]) c) q = isDir f q) by (intros q; apply isDir_put_in; exact D).
      destruct (IH (put f (package ++ [n]) c)) as (g & EG & A & B & DG).
      + rewrite DS. exact D.
      + exact E.
      + intros m Hm. destruct (H m (or_intror Hm)) as (Pm & Xm & d & Lm). split; [exact Pm|]. split; [rewrite DS; exact Xm|]. exists d. rewrite lookup_put, path_eqb_neq; [exact Lm|].
        intros Q. apply app_inj_tail in Q as [Q _]. congruence.
      + exists g. split; [exact EG|]. assert (SRC : forall m, lookup (put f (package ++ [n]) c) (src ++ [m]) = lookup f (src ++ [m])).
        { intros m. rewrite lookup_put, path_eqb_neq; [reflexivity|]. intros Q. apply app_inj_tail in Q as [Q _]. congruence. }
        split; [|split].
        * intros m [<-|Hm]; [|rewrite A by exact Hm; apply SRC]. destruct (in_dec (list_eq_dec Z.eq_dec) n ns) as [I|I]; [rewrite A by exact I; apply SRC|].
          rewrite B by (intros m Hm Q; apply app_inj_tail in Q as [_ ->]; contradiction). rewrite lookup_put, path_eqb_refl. symmetry. exact L.
        * intros p Hp. rewrite B by (intros m Hm; apply Hp; right; exact Hm). rewrite lookup_put, path_eqb_neq; [reflexivity|]. intros Q. apply (Hp n); [left; reflexivity|congruence].
        * intros q. rewrite DG. apply DS.
  Qed.
  Lemma install_ok f d l : isDir f package = true -> isDir f packageData = true -> src <> package -> src <> packageData ->
    (forall n, ends (lit ".py") n = true -> isDir f (src ++ [n]) = false /\ isDir f (package ++ [n]) = false) ->
    isDir f (packageData ++ [lit "icudata.dat"]) = false -> isDir f (packageData ++ [lit "LICENSE"]) = false ->
    lookup f (src ++ [lit "icudata.dat"]) = Some d -> lookup f (src ++ [lit "LICENSE"]) = Some l ->
    exists g, install cwd arg f = (Ok tt, g) /\
      (forall n c, ends (lit ".py") n = true -> lookup f (src ++ [n]) = Some c -> lookup g (package ++ [n]) = Some c) /\
      lookup g (packageData ++ [lit "icudata.dat"]) = Some d /\ lookup g (packageData ++ [lit "LICENSE"]) = Some l /\
      (forall p, (forall n, ends (lit ".py") n = true -> lookup f (src ++ [n]) <> None -> p <> package ++ [n]) -> p <> packageData ++ [lit "icudata.dat"] -> p <> packageData ++ [lit "LICENSE"] -> lookup g p = lookup f p).
  Proof.
    intros DP DD NP ND PY XD XL LD LL. set (ns := filter (ends (lit ".py")) (children f src)).
    assert (NS : forall n, In n ns <-> ends (lit ".py") n = true /\ exists c, lookup f (src ++ [n]) = Some c).
    { intros n. unfold ns. rewrite filter_In. split.
      - intros [A B]. split; [exact B|]. apply child_file; [apply PY; exact B|exact A].
      - intros [A B]. split; [|exact A]. apply child_file; [apply PY; exact A|exact B]. }
    destruct (copyAll_ok ns f DP NP) as (g1 & E1 & A1 & B1 & D1).
    { intros n Hn. apply NS in Hn as [Hn C]. split; [exact Hn|]. split; [apply PY; exact Hn|exact C]. }
    assert (DLEN : forall n, packageData ++ [lit "icudata.dat"] <> package ++ [n] /\ packageData ++ [lit "LICENSE"] <> package ++ [n]).
    { assert (LEN : length packageData <> length package) by (unfold packageData, package; rewrite !app_length; cbn; lia).
      intros n. split; intros Q; apply app_inj_tail in Q as [Q _]; apply LEN; rewrite Q; reflexivity. }
    assert (S1 : forall m, ends (lit ".py") m = false -> lookup g1 (src ++ [m]) = lookup f (src ++ [m])).
    { intros m Hm. apply B1. intros n Hn Q. apply app_inj_tail in Q as [Q _]. contradiction. }
    assert (R : forall n, plain n -> resolve cwd (parsePath arg ++ [n]) = src ++ [n]) by (intros n Hn; apply resolve_app; constructor; [exact Hn|constructor]).
    unfold install. rewrite (andThen_ok (globPy cwd (parsePath arg)) _ (map (fun n => parsePath arg ++ [n]) ns) f f eq_refl). rewrite (andThen_ok _ _ _ _ _ E1).
    change (joinPath (parsePath arg) (lit "icudata.dat")) with (parsePath arg ++ [lit "icudata.dat"]). change (joinPath (parsePath arg) (lit "LICENSE")) with (parsePath arg ++ [lit "LICENSE"]).
    assert (E2 : copy cwd (parsePath arg ++ [lit "icudata.dat"]) (joinPath (parsePath (lit "UnicodeData")) (lit "Data")) g1 = (Ok tt, put g1 (packageData ++ [lit "icudata.dat"]) d)).
    { rewrite <- packageData_resolve. apply copy_to; rewrite ?packageData_resolve, ?D1, ?S1 by reflexivity; auto; [apply R; split; discriminate|apply last_snoc]. }
    rewrite (andThen_ok _ _ _ _ _ E2). set (g2 := put g1 (packageData ++ [lit "icudata.dat"]) d) in *.
    assert (D2 : forall q, isDir g2 q = isDir f q) by (intros q; unfold g2; rewrite isDir_put_in; [apply D1|rewrite D1; exact DD]).
    assert (L2 : lookup g2 (src ++ [lit "LICENSE"]) = Some l).
    { unfold g2. rewrite lookup_put, path_eqb_neq; [rewrite S1 by reflexivity; exact LL|]. intros Q. apply app_inj_tail in Q as [Q _]. congruence. }
    assert (E3 : copy cwd (parsePath arg ++ [lit "LICENSE"]) (joinPath (parsePath (lit "UnicodeData")) (lit "Data")) g2 = (Ok tt, put g2 (packageData ++ [lit "LICENSE"]) l)).
    { rewrite <- packageData_resolve. apply copy_to; rewrite ?packageData_resolve, ?D2; auto; [apply R; split; discriminate|apply last_snoc]. }
    eexists. split; [exact E3|]. split; [|split; [|split]].
    - intros n c Hn Hc. rewrite lookup_put, path_eqb_neq by (apply (DLEN n)). unfold g2. rewrite lookup_put, path_eqb_neq by (apply (DLEN n)). rewrite A1; [exact Hc|]. apply NS. split; [exact Hn|exists c; exact Hc].
    - rewrite lookup_put, path_eqb_neq by (apply snoc_neq; discriminate). unfold g2. rewrite lookup_put, path_eqb_refl. reflexivity.
    - rewrite lookup_put, path_eqb_refl. reflexivity.
    - intros p Hp Hd Hl. rewrite lookup_put, path_eqb_neq by congruence. unfold g2. rewrite lookup_put, path_eqb_neq by congruence. apply B1.
      intros n Hn. apply NS in Hn as (Hn & c & Hc). apply Hp; [exact Hn|]. rewrite Hc. discriminate.
  Qed.
End Install.
