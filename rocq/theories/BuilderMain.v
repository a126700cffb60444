(** * The programs of module_builder: the command lines of ModuleBuilder.py and ModuleInstaller.py *)
From Coq Require Import ZArith List Bool Lia String Permutation.
From Verif Require Import Py Dict CharNames PyText BuilderArgs Build.
Import ListNotations.
Open Scope string_scope.
Open Scope list_scope.
Open Scope Z_scope.
Local Notation length := List.length.
Local Notation concat := List.concat.

Section Messages.
  (** what the ArgumentIterator takes as a value, and the text of its ValueError for what it
      was asked and what is left of the command line; it is not part of the repository *)
  Variable accepts : str -> bool.
  Variable extraMessage : str -> list str -> str.
  (** ModuleBuilder.py:56-62 what [nextExtra] is asked *)
  Definition titleOf (option : str) : str :=
    if str_eqb option (lit "--sourceDir") then lit "ICU Source Directory"
    else if str_eqb option (lit "--buildDir") then lit "ICU Build Directory" else lit "Output Directory".
  Definition setOption (a : args) (option v : str) : args :=
    if str_eqb option (lit "--sourceDir") then mkArgs v (icuBuildDir a) (outputDir a)
    else if str_eqb option (lit "--buildDir") then mkArgs (icuSourceDir a) v (outputDir a) else mkArgs (icuSourceDir a) (icuBuildDir a) v.
  Definition known (option : str) : bool :=
    str_eqb option (lit "--sourceDir") || str_eqb option (lit "--buildDir") || str_eqb option (lit "--outputDir").
  (** ModuleBuilder.py:43-64 with the text of the ValueError, which has the quotation marks
      U+201C and U+201D.  BuilderArgs.v has the same loop
      without the texts. *)
  Fixpoint argTexts (seen : list str) (a : args) (arguments : list str) : args + str :=
    match arguments with
    | [] => inl a
    | argument :: rest =>
        if existsb (str_eqb argument) seen then inr (lit "Duplicate option " ++ [0x201C] ++ argument ++ [0x201D] ++ lit ".")
        else if known argument then
          match rest with
          | [] => inr (extraMessage (titleOf argument) [])
          | v :: rest' => if accepts v then argTexts (argument :: seen) (setOption a argument v) rest' else inr (extraMessage (titleOf argument) rest)
          end
        else inr (lit "Unrecognized option " ++ [0x201C] ++ argument ++ [0x201D] ++ lit ".")
    end.
  Definition missing (option : str) : str := lit "Missing " ++ [0x201C] ++ option ++ [0x201D] ++ lit " option.".
  (** ModuleBuilder.py:66-82 *)
  Definition completeTexts (a : args) : args + str :=
    match icuSourceDir a with [] => inr (missing (lit "--sourceDir")) | _ =>
    match icuBuildDir a with [] => inr (missing (lit "--buildDir")) | _ =>
    match outputDir a with [] => inr (missing (lit "--outputDir")) | _ => inl a end end end.
  (** ModuleBuilder.py:37-54 *)
  Definition argumentTexts (argumentList : list str) : args + str :=
    match argTexts [] newArgs argumentList with inl a => completeTexts a | inr m => inr m end.

  (** ** What the programs do *)
  (** ModuleBuilder.py:1-7; it begins with a slash *)
  Definition docText : str := lit "/" ++ [10] ++ lit "ModuleBuilder. Build Python data from c files" ++ [10; 10] ++ lit "Created on April 26, 2021" ++ [10; 10] ++ lit "@author Eric Mader" ++ [10].
  (** [Exits n err]: exit with this status and text on stderr; [Ends out]: the end is reached,
      with this text on stdout; [Raises e]: a traceback.  What is on stdout in the other cases
      is left out. *)
  Inductive outcome := Exits (status : Z) (err : str) | Ends (out : str) | Raises (e : exn).
  (** the status that the shell sees *)
  Definition status (o : outcome) : Z := match o with Exits n _ => n | Ends _ => 0 | Raises _ => 1 end.
  Definition nameOfPath (p : path) : str := match rev p with x :: _ => if str_eqb x ROOT then [] else x | [] => [] end.
  Variable cwd : path.
  Variable now : str -> str.
  Variable pyeval : str -> dict Z -> res Z.
  (** ModuleBuilder.py:171-255: [build] with its command line *)
  Definition mainBuild (argv : list str) : fs -> outcome * fs := fun f =>
    match argv with
    | [] => (Raises IndexError, f)
    | program :: argumentList =>
        match argumentList with
        | [] => (Exits 1 (docText ++ [10]), f)
        | _ =>
            match argumentTexts argumentList with
            | inr m => (Exits 1 (nameOfPath (parsePath program) ++ lit ": " ++ m ++ [10]), f)
            | inl a =>
                match build cwd now pyeval a f with
                | (Ok (v, w), g) => (Ends (lit "ICU version = " ++ v ++ lit ", short version = " ++ w ++ [10]), g)
                | (Err e, g) => (Raises e, g)
                end
            end
        end
    end.
  (** ModuleInstaller.py:13-24; arguments after the first are not looked at *)
  Definition mainInstall (argv : list str) : fs -> outcome * fs := fun f =>
    match argv with
    | _ :: arg :: _ => match install cwd arg f with (Ok _, g) => (Ends [], g) | (Err e, g) => (Raises e, g) end
    | _ => (Raises IndexError, f)
    end.
End Messages.

(** ** The two loops agree *)
Lemma known_cases x : known x = true <-> In x [lit "--sourceDir"; lit "--buildDir"; lit "--outputDir"].
Proof.
  unfold known. rewrite !orb_true_iff, !str_eqb_eq. cbn [In]. intuition.
Qed.
Lemma texts_loop accepts extra : forall n l seen a, (length l <= n)%nat ->
  argLoop accepts n seen a l = match argTexts accepts extra seen a l with inl a => Ok a | inr _ => Err ValueError end.
Proof.
  induction n as [|n IH]; intros [|x l] seen a H; try reflexivity; [cbn in H; lia|]. cbn [argLoop argTexts]. destruct (existsb (str_eqb x) seen); [reflexivity|].
  unfold processArgument, known, setOption. destruct (str_eqb x (lit "--sourceDir")); [|destruct (str_eqb x (lit "--buildDir")); [|destruct (str_eqb x (lit "--outputDir")); [|reflexivity]]];
    cbn [orb]; (destruct l as [|v l]; [reflexivity|]); cbn [nextExtra]; (destruct (accepts v); [|reflexivity]); cbn [bind]; apply IH; cbn in H; lia.
Qed.
Lemma texts_args accepts extra l : forArguments accepts l = match argumentTexts accepts extra l with inl a => Ok a | inr _ => Err ValueError end.
Proof.
  unfold forArguments, argumentTexts. rewrite (texts_loop accepts extra) by lia. destruct (argTexts accepts extra [] newArgs l) as [a|m]; [|reflexivity]. cbn [bind]. unfold completeInit, completeTexts.
  destruct (icuSourceDir a); [reflexivity|]. destruct (icuBuildDir a); [reflexivity|]. destruct (outputDir a); reflexivity.
Qed.

(** ** What is said *)
Definition three : list str := [lit "--sourceDir"; lit "--buildDir"; lit "--outputDir"].
Definition flat (ps : list (str * str)) : list str := concat (map (fun p => [fst p; snd p]) ps).
Definition given (accepts : str -> bool) (ps : list (str * str)) : Prop := NoDup (map fst ps) /\ Forall (fun p => In (fst p) three /\ accepts (snd p) = true) ps.
Definition setAll (a : args) (ps : list (str * str)) : args := fold_left (fun a p => setOption a (fst p) (snd p)) ps a.
Lemma seen_in x l : existsb (str_eqb x) l = true <-> In x l.
Proof. rewrite existsb_exists. split; [intros (y & I & E); apply str_eqb_eq in E; subst; exact I|intros I; exists x; split; [exact I|apply str_eqb_refl]]. Qed.
Lemma texts_prefix accepts extra : forall ps seen a rest, Forall (fun p => In (fst p) three /\ accepts (snd p) = true) ps -> NoDup (map fst ps) -> (forall x, In x (map fst ps) -> ~ In x seen) ->
  argTexts accepts extra seen a (flat ps ++ rest) = argTexts accepts extra (rev (map fst ps) ++ seen) (setAll a ps) rest.
Proof.
  induction ps as [|[x v] ps IH]; intros seen a rest F N D; [reflexivity|]. inversion F as [|? ? [K A] F']; subst. cbn [map fst snd] in *. inversion N as [|? ? NI N']; subst.
  change (flat ((x, v) :: ps) ++ rest) with (x :: v :: flat ps ++ rest). cbn [argTexts]. destruct (existsb (str_eqb x) seen) eqn:E; [apply seen_in in E; elim (D x (or_introl eq_refl) E)|].
  apply known_cases in K. rewrite K, A. rewrite IH; [|exact F'|exact N'|].
  - cbn [rev]. rewrite <- app_assoc. reflexivity.
  - intros y I [<-|J]; [contradiction|]. exact (D y (or_intror I) J).
Qed.
(** every command line begins with pairs, and goes on with something else or ends *)
Lemma split_line accepts : forall n l seen, (length l <= n)%nat -> exists ps rest, l = flat ps ++ rest /\ Forall (fun p => In (fst p) three /\ accepts (snd p) = true) ps /\ NoDup (map fst ps) /\ (forall x, In x (map fst ps) -> ~ In x seen) /\
  match rest with
  | [] => True
  | x :: r => In x (map fst ps ++ seen) \/ ~ In x three \/ In x three /\ ~ In x (map fst ps ++ seen) /\ match r with [] => True | v :: _ => accepts v = false end
  end.
Proof.
  induction n as [|n IH]; intros [|x l] seen H; try (exists [], []; (split; [reflexivity|split; [constructor|split; [constructor|split; [intros ? []|exact Logic.I]]]])); [cbn in H; lia|].
  destruct (existsb (str_eqb x) seen) eqn:E.
  { apply seen_in in E. exists [], (x :: l). (split; [reflexivity|split; [constructor|split; [constructor|split; [intros ? []|left; exact E]]]]). }
  assert (NS : ~ In x seen) by (intros I; apply seen_in in I; congruence).
  destruct (known x) eqn:K.
  - apply known_cases in K. destruct l as [|v l].
    + exists [], [x]. (split; [reflexivity|split; [constructor|split; [constructor|split; [intros ? []|]]]]). right. right. auto.
    + destruct (accepts v) eqn:A.
      * destruct (IH l (x :: seen)) as (ps & rest & -> & F & N & D & R); [cbn in H; lia|]. exists ((x, v) :: ps), rest. split; [reflexivity|]. split; [constructor; auto|]. split; [|split].
        -- cbn [map fst]. constructor; [intros I; exact (D x I (or_introl eq_refl))|exact N].
        -- cbn [map fst]. intros y [<-|I]; [exact NS|]. intros J. exact (D y I (or_intror J)).
        -- assert (S1 : forall y, In y (map fst ps ++ x :: seen) <-> In y (map fst ((x, v) :: ps) ++ seen)) by (intros y; cbn [map fst]; rewrite !in_app_iff; cbn [In]; tauto).
           destruct rest as [|y r]; [exact Logic.I|]. rewrite S1 in R. exact R.
      * exists [], (x :: v :: l). (split; [reflexivity|split; [constructor|split; [constructor|split; [intros ? []|]]]]). right. right. auto.
  - exists [], (x :: l). (split; [reflexivity|split; [constructor|split; [constructor|split; [intros ? []|]]]]). right. left. intros I. apply known_cases in I. congruence.
Qed.
(** the value an option has *)
Definition getOption (o : str) (a : args) : str := if str_eqb o (lit "--sourceDir") then icuSourceDir a else if str_eqb o (lit "--buildDir") then icuBuildDir a else outputDir a.
Lemma set_option a x w o : In o three -> In x three -> getOption o (setOption a x w) = if str_eqb o x then w else getOption o a.
Proof. intros O K. unfold three in *. cbn [In] in O, K. destruct O as [<-|[<-|[<-|[]]]]; destruct K as [<-|[<-|[<-|[]]]]; reflexivity. Qed.
Lemma set_get ps : forall a o, Forall (fun p => In (fst p) three) ps -> NoDup (map fst ps) -> In o three ->
  (forall v, In (o, v) ps -> getOption o (setAll a ps) = v) /\ (~ In o (map fst ps) -> getOption o (setAll a ps) = getOption o a).
Proof.
  induction ps as [|[x w] ps IH]; intros a o F N O; [split; [intros v []|reflexivity]|]. inversion F as [|? ? K F']; subst. cbn [map fst] in *. inversion N as [|? ? NI N']; subst.
  change (setAll a ((x, w) :: ps)) with (setAll (setOption a x w) ps). destruct (IH (setOption a x w) o F' N' O) as [I1 I2].
  split.
  - intros v [E|I]; [injection E as <- <-; rewrite I2 by exact NI; rewrite set_option, str_eqb_refl by assumption; reflexivity|apply I1; exact I].
  - intros NO. rewrite I2 by (intros I; exact (NO (or_intror I))). rewrite set_option by assumption. destruct (str_eqb o x) eqn:E; [apply str_eqb_eq in E; subst; elim (NO (or_introl eq_refl))|reflexivity].
Qed.
