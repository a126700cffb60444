(** * Property C105: the command lines of the two programs of module_builder *)
From Coq Require Import ZArith List Bool Lia String Permutation.
From Verif Require Import Py Dict CharNames PyText BuilderArgs Build BuilderMain Prop_Args.
Import ListNotations.
Open Scope string_scope.
Open Scope list_scope.
Open Scope Z_scope.
Local Notation length := List.length.
Local Notation concat := List.concat.

(** ** C105

    A command line begins with pairs of an option and its value: options of the three, no
    option twice, values that the argument iterator accepts.  What is said depends on what
    comes after these pairs. *)
Inductive complaint (accepts : str -> bool) (extra : str -> list str -> str) : list str -> str -> Prop :=
| Absent ps o : given accepts ps -> In o three ->
    (** the first of the three, in this order, without a value or with an empty one *)
    (forall v, In (o, v) ps -> v = []) ->
    (forall before after, three = before ++ o :: after -> forall o', In o' before -> exists v, In (o', v) ps /\ v <> []) ->
    complaint accepts extra (flat ps) (lit "Missing " ++ [0x201C] ++ o ++ [0x201D] ++ lit " option.")
| Twice ps o rest : given accepts ps -> In o (map fst ps) ->
    complaint accepts extra (flat ps ++ o :: rest) (lit "Duplicate option " ++ [0x201C] ++ o ++ [0x201D] ++ lit ".")
| Unknown ps o rest : given accepts ps -> ~ In o three ->
    complaint accepts extra (flat ps ++ o :: rest) (lit "Unrecognized option " ++ [0x201C] ++ o ++ [0x201D] ++ lit ".")
| NoValue ps o title rest : given accepts ps -> In (o, title) [(lit "--sourceDir", lit "ICU Source Directory"); (lit "--buildDir", lit "ICU Build Directory"); (lit "--outputDir", lit "Output Directory")] ->
    ~ In o (map fst ps) -> (forall v r, rest = v :: r -> accepts v = false) ->
    complaint accepts extra (flat ps ++ o :: rest) (extra title rest).

Lemma complete_texts a m : completeTexts a = inr m <->
  exists o, m = missing o /\ In o three /\ getOption o a = [] /\ forall before after, three = before ++ o :: after -> forall o', In o' before -> getOption o' a <> [].
Proof.
  destruct a as [s b o]. split.
  - unfold completeTexts. cbn [icuSourceDir icuBuildDir outputDir]. destruct s as [|s0 s]; [|destruct b as [|b0 b]; [|destruct o as [|o0 o]; [|discriminate]]]; intros H; injection H as <-.
    + exists (lit "--sourceDir"). split; [reflexivity|]. split; [left; reflexivity|]. split; [reflexivity|]. intros [|x before] after E o' I; [destruct I|].
      unfold three in E. injection E as <- E. destruct before as [|y [|z before]]; try discriminate E; destruct before; discriminate E.
    + exists (lit "--buildDir"). split; [reflexivity|]. split; [right; left; reflexivity|]. split; [reflexivity|]. intros before after E o' I.
      unfold three in E. destruct before as [|x [|y before]]; [destruct I| |].
      * injection E as <- _. destruct I as [<-|[]]. discriminate.
      * injection E as _ _ E. destruct before as [|z before]; [discriminate E|destruct before; discriminate E].
    + exists (lit "--outputDir"). split; [reflexivity|]. split; [right; right; left; reflexivity|]. split; [reflexivity|]. intros before after E o' I.
      unfold three in E. destruct before as [|x [|y [|z before]]]; [destruct I|discriminate E| |].
      * injection E as <- <- _. destruct I as [<-|[<-|[]]]; discriminate.
      * injection E as _ _ _ E. destruct before; discriminate E.
  - intros (x & -> & O & G & B). cbn [three In] in O. destruct O as [<-|[<-|[<-|[]]]].
    + cbn in G. subst s. reflexivity.
    + cbn in G. subst b. specialize (B [lit "--sourceDir"] [lit "--outputDir"] eq_refl (lit "--sourceDir") (or_introl eq_refl)). cbn in B. destruct s; [congruence|]. reflexivity.
    + cbn in G. subst o. pose proof (B [lit "--sourceDir"; lit "--buildDir"] [] eq_refl (lit "--sourceDir") (or_introl eq_refl)) as B1. pose proof (B [lit "--sourceDir"; lit "--buildDir"] [] eq_refl (lit "--buildDir") (or_intror (or_introl eq_refl))) as B2.
      cbn in B1, B2. destruct s; [congruence|]. destruct b; [congruence|]. reflexivity.
Qed.
Lemma given_get accepts ps o : given accepts ps -> In o three -> (getOption o (setAll newArgs ps) = [] <-> forall v, In (o, v) ps -> v = []).
Proof.
  intros [N F] O. assert (F' : Forall (fun p => In (fst p) three) ps) by (eapply Forall_impl; [|exact F]; cbv beta; tauto). destruct (set_get ps newArgs o F' N O) as [G1 G2]. split.
  - intros E v I. rewrite <- (G1 v I). exact E.
  - intros H. destruct (in_dec (list_eq_dec Z.eq_dec) o (map fst ps)) as [I|I].
    + apply in_map_iff in I as ([o' v] & E & I). cbn [fst] in E. subst o'. rewrite (G1 v I). exact (H v I).
    + rewrite G2 by exact I. cbn [three In] in O. destruct O as [<-|[<-|[<-|[]]]]; reflexivity.
Qed.
Lemma title_in o t : In (o, t) [(lit "--sourceDir", lit "ICU Source Directory"); (lit "--buildDir", lit "ICU Build Directory"); (lit "--outputDir", lit "Output Directory")] <-> In o three /\ t = titleOf o.
Proof.
  split.
  - intros [E|[E|[E|[]]]]; injection E as <- <-; (split; [cbn [three In]; auto|reflexivity]).
  - intros [O ->]. cbn [three In] in O. destruct O as [<-|[<-|[<-|[]]]]; [left|right; left|right; right; left]; reflexivity.
Qed.
Lemma split3 o : In o three -> exists before after, three = before ++ o :: after.
Proof. intros O. apply in_split in O. exact O. Qed.
Lemma before_three before after o o' : three = before ++ o :: after -> In o' before -> In o' three.
Proof. intros E I. rewrite E. apply in_or_app. left. exact I. Qed.

(** The message is this one, and there is a message exactly when C91 refuses the command line. *)
Theorem C105_message : forall accepts extra l m, argumentTexts accepts extra l = inr m <-> complaint accepts extra l m.
Proof.
  intros accepts extra l m. unfold argumentTexts. split.
  - destruct (split_line accepts (length l) l [] (le_n _)) as (ps & rest & -> & F & N & D & R). rewrite texts_prefix by (assumption || intros ? ? []).
    assert (G : given accepts ps) by (split; assumption). rewrite app_nil_r. destruct rest as [|o rest].
    + cbn [argTexts]. rewrite app_nil_r. intros H. apply complete_texts in H as (o & -> & O & E & B). apply Absent; [exact G|exact O|apply (given_get accepts ps o G O); exact E|].
      intros before after E3 o' I. pose proof (B before after E3 o' I) as NE. pose proof (before_three _ _ _ _ E3 I) as O'.
      assert (F' : Forall (fun p => In (fst p) three) ps) by (eapply Forall_impl; [|exact F]; cbv beta; tauto). destruct (set_get ps newArgs o' F' N O') as [G1 G2].
      destruct (in_dec (list_eq_dec Z.eq_dec) o' (map fst ps)) as [J|J].
      * apply in_map_iff in J as ([o2 v] & E2 & J). cbn [fst] in E2. subst o2. exists v. split; [exact J|]. rewrite <- (G1 v J). exact NE.
      * rewrite (G2 J) in NE. elim NE. cbn [three In] in O'. destruct O' as [<-|[<-|[<-|[]]]]; reflexivity.
    + rewrite app_nil_r in R. cbn [argTexts]. destruct (existsb (str_eqb o) (rev (map fst ps))) eqn:E.
      * apply seen_in in E. apply in_rev in E. intros H. injection H as <-. apply Twice; assumption.
      * assert (NI : ~ In o (map fst ps)) by (intros I; apply in_rev in I; apply seen_in in I; congruence). destruct (known o) eqn:K.
        -- apply known_cases in K. destruct R as [R|[R|(_ & _ & R)]]; [contradiction|elim (R K)|]. destruct rest as [|v r].
           ++ intros H. injection H as <-. apply NoValue; [exact G|apply title_in; auto|exact NI|discriminate].
           ++ rewrite R. intros H. injection H as <-. apply NoValue; [exact G|apply title_in; auto|exact NI|]. intros v' r' E'. injection E' as <- <-. exact R.
        -- intros H. injection H as <-. apply Unknown; [exact G|]. intros I. apply known_cases in I. congruence.
  - intros C. destruct C as [ps o [N F] O E B|ps o rest [N F] I|ps o rest [N F] I|ps o title rest [N F] T I V].
    + rewrite <- (app_nil_r (flat ps)), texts_prefix by (assumption || intros ? ? []). cbn [argTexts]. apply complete_texts. exists o. split; [reflexivity|]. split; [exact O|]. split; [apply (given_get accepts ps o (conj N F) O); exact E|].
      intros before after E3 o' I. destruct (B before after E3 o' I) as (v & J & NV). intros Q. apply NV. apply (given_get accepts ps o' (conj N F) (before_three _ _ _ _ E3 I)) in J; assumption.
    + rewrite texts_prefix by (assumption || intros ? ? []). cbn [argTexts]. rewrite app_nil_r. destruct (existsb (str_eqb o) (rev (map fst ps))) eqn:E; [reflexivity|]. apply in_rev, seen_in in I. congruence.
    + rewrite texts_prefix by (assumption || intros ? ? []). cbn [argTexts]. rewrite app_nil_r. destruct (existsb (str_eqb o) (rev (map fst ps))) eqn:E.
      * apply seen_in, in_rev, in_map_iff in E as ([o' v] & <- & J). rewrite Forall_forall in F. elim (I (proj1 (F _ J))).
      * destruct (known o) eqn:K; [apply known_cases in K; contradiction|reflexivity].
    + rewrite texts_prefix by (assumption || intros ? ? []). cbn [argTexts]. rewrite app_nil_r. destruct (existsb (str_eqb o) (rev (map fst ps))) eqn:E; [apply seen_in, in_rev in E; contradiction|].
      apply title_in in T as [O ->]. apply known_cases in O. rewrite O. destruct rest as [|v r]; [reflexivity|]. rewrite (V v r eq_refl). reflexivity.
Qed.
Print Assumptions C105_message.
(** C91's [forArguments] is this parser without its texts *)
Theorem C105_refines : forall accepts extra l,
  (forall a, forArguments accepts l = Ok a <-> argumentTexts accepts extra l = inl a) /\
  (forArguments accepts l = Err ValueError <-> exists m, complaint accepts extra l m).
Proof.
  intros accepts extra l. rewrite (texts_args accepts extra). split.
  - intros a. destruct (argumentTexts accepts extra l); split; congruence.
  - destruct (argumentTexts accepts extra l) as [a|m] eqn:E; split; try discriminate; try reflexivity.
    + intros (m & C). apply C105_message in C. congruence.
    + intros _. exists m. apply C105_message. exact E.
Qed.
Print Assumptions C105_refines.

(** *** The module builder

    Without arguments: the text of the module, status 1, and no file is touched.  With arguments
    that C91 refuses: the name of the program and the message, status 1, and no file is touched.
    Otherwise what happens is [build] with the values of C91. *)
Theorem C105_build : forall accepts extra cwd now pyeval argv f,
  (argv = [] -> mainBuild accepts extra cwd now pyeval argv f = (Raises IndexError, f)) /\
  (forall program, argv = [program] -> mainBuild accepts extra cwd now pyeval argv f =
     (Exits 1 (concat (map (fun l => l ++ [10]) [lit "/"; lit "ModuleBuilder. Build Python data from c files"; []; lit "Created on April 26, 2021"; []; lit "@author Eric Mader"; []])), f)) /\
  (forall program l m, argv = program :: l -> l <> [] -> complaint accepts extra l m ->
     mainBuild accepts extra cwd now pyeval argv f = (Exits 1 (nameOfPath (parsePath program) ++ lit ": " ++ m ++ [10]), f)) /\
  (forall program l a, argv = program :: l -> forArguments accepts l = Ok a -> forall r g, build cwd now pyeval a f = (r, g) ->
     mainBuild accepts extra cwd now pyeval argv f =
     (match r with Ok (v, w) => Ends (lit "ICU version = " ++ v ++ lit ", short version = " ++ w ++ [10]) | Err e => Raises e end, g)).
Proof.
  intros accepts extra cwd now pyeval argv f. split; [|split; [|split]].
  - intros ->. reflexivity.
  - intros program ->. reflexivity.
  - intros program l m -> NE C. unfold mainBuild. apply C105_message in C. destruct l as [|x l]; [congruence|]. rewrite C. reflexivity.
  - intros program l a -> A r g B. destruct l as [|x l]; [discriminate|]. apply (proj1 (C105_refines accepts extra (x :: l)) a) in A. unfold mainBuild. rewrite A, B. destruct r as [[v w]|e]; reflexivity.
Qed.
Print Assumptions C105_build.
(** The status is 0 exactly when the command line is one of C91 and the build succeeds;
    and a ValueError of the build itself is not caught: it is no message but a traceback. *)
Theorem C105_status : forall accepts extra cwd now pyeval argv f,
  (status (fst (mainBuild accepts extra cwd now pyeval argv f)) = 0 <->
   exists program l a v g, argv = program :: l /\ forArguments accepts l = Ok a /\ build cwd now pyeval a f = (Ok v, g)) /\
  (forall e, fst (mainBuild accepts extra cwd now pyeval argv f) = Raises e <->
     argv = [] /\ e = IndexError \/ exists program l a g, argv = program :: l /\ forArguments accepts l = Ok a /\ build cwd now pyeval a f = (Err e, g)) /\
  (** no file changes unless the arguments are those of C91 *)
  ((forall program l a, argv = program :: l -> forArguments accepts l <> Ok a) -> snd (mainBuild accepts extra cwd now pyeval argv f) = f).
Proof.
  intros accepts extra cwd now pyeval argv f. destruct argv as [|p l].
  - cbn [mainBuild fst snd status]. split; [|split; [|reflexivity]].
    + split; [discriminate|]. intros (? & ? & ? & ? & ? & E & _). discriminate.
    + intros e. split; [intros H; injection H as <-; left; auto|]. intros [[_ ->]|(? & ? & ? & ? & E & _)]; [reflexivity|discriminate].
  - destruct (forArguments accepts l) as [a|e0] eqn:A.
    + destruct (build cwd now pyeval a f) as [r g] eqn:B. destruct (C105_build accepts extra cwd now pyeval (p :: l) f) as (_ & _ & _ & H). rewrite (H p l a eq_refl A r g B). cbn [fst snd]. split; [|split].
      * destruct r as [[v w]|e]; cbn [status]; split; try discriminate; try reflexivity.
        -- intros _. exists p, l, a, (v, w), g. auto.
        -- intros (p' & l' & a' & v & g' & E & A' & B'). injection E as <- <-. congruence.
      * intros e. destruct r as [[v w]|e']; split; try discriminate.
        -- intros [[E _]|(p' & l' & a' & g' & E & A' & B')]; [discriminate|]. injection E as <- <-. congruence.
        -- intros E. injection E as <-. right. exists p, l, a, g. auto.
        -- intros [[E _]|(p' & l' & a' & g' & E & A' & B')]; [discriminate|]. injection E as <- <-. congruence.
      * intros N. elim (N p l a eq_refl A).
    + assert (X : exists m, mainBuild accepts extra cwd now pyeval (p :: l) f = (Exits 1 m, f)).
      { destruct l as [|x l]; [eexists; reflexivity|]. unfold mainBuild. rewrite (texts_args accepts extra) in A. destruct (argumentTexts accepts extra (x :: l)); [discriminate|]. eexists. reflexivity. }
      destruct X as (m & ->). cbn [fst snd status]. split; [|split; [|reflexivity]].
      * split; [discriminate|]. intros (p' & l' & a' & v & g' & E & A' & B'). injection E as <- <-. congruence.
      * intros e. split; [discriminate|]. intros [[E _]|(p' & l' & a' & g' & E & A' & B')]; [discriminate|]. injection E as <- <-. congruence.
Qed.
Print Assumptions C105_status.

(** *** The installer

    It needs one argument; without it there is an IndexError before any file is touched.
    Further arguments make no difference. *)
Theorem C105_install : forall cwd f,
  (forall argv, (length argv <= 1)%nat -> mainInstall cwd argv f = (Raises IndexError, f)) /\
  forall program arg rest r g, install cwd arg f = (r, g) ->
    mainInstall cwd (program :: arg :: rest) f = (match r with Ok _ => Ends [] | Err e => Raises e end, g).
Proof.
  intros cwd f. split.
  - intros [|p [|x l]] H; try reflexivity. cbn in H. lia.
  - intros program arg rest r g I. unfold mainInstall. rewrite I. destruct r; reflexivity.
Qed.
Print Assumptions C105_install.

(** the iterator of the case refuses what begins with two hyphens *)
Definition noOption (v : str) : bool := negb (str_eqb (firstn 2 v) (lit "--")).
Definition asks (title : str) (_ : list str) : str := lit "Missing " ++ title ++ lit ".".
Definition curly (s : str) : str := [0x201C] ++ s ++ [0x201D].
Definition empty : fs := mkFs [] [].
Example C105_case :
  argumentTexts noOption asks (map lit ["--outputDir"; "out"; "--sourceDir"; "icu"]) = inr (lit "Missing " ++ curly (lit "--buildDir") ++ lit " option.") /\
  argumentTexts noOption asks (map lit ["--outputDir"; "out"; "--sourceDir"; ""; "--buildDir"; ""]) = inr (lit "Missing " ++ curly (lit "--sourceDir") ++ lit " option.") /\
  argumentTexts noOption asks (map lit ["--outputDir"; "out"; "--outputDir"; "out"]) = inr (lit "Duplicate option " ++ curly (lit "--outputDir") ++ lit ".") /\
  argumentTexts noOption asks (map lit ["--outputDir"; "out"; "extra"]) = inr (lit "Unrecognized option " ++ curly (lit "extra") ++ lit ".") /\
  argumentTexts noOption asks (map lit ["--outputDir"; "--sourceDir"; "icu"]) = inr (lit "Missing Output Directory.") /\
  complaint noOption asks (flat [(lit "--outputDir", lit "out")] ++ lit "extra" :: []) (lit "Unrecognized option " ++ curly (lit "extra") ++ lit ".") /\
  mainBuild noOption asks [] (fun s => s) (fun _ _ => Err NameError) (map lit ["tools/ModuleBuilder.py"; "-h"]) empty =
    (Exits 1 (lit "ModuleBuilder.py: Unrecognized option " ++ curly (lit "-h") ++ lit "." ++ [10]), empty) /\
  fst (mainBuild noOption asks [] (fun s => s) (fun _ _ => Err NameError) (map lit ["b"; "--outputDir"; "o"; "--sourceDir"; "s"; "--buildDir"; "c"]) empty) = Raises FileNotFoundError.
Proof.
  do 5 (split; [vm_compute; reflexivity|]). split; [|split; vm_compute; reflexivity].
  apply Unknown; [|vm_compute; intuition discriminate]. split; [repeat constructor; intros []|]. constructor; [|constructor]. split; [vm_compute; tauto|reflexivity].
Qed.
