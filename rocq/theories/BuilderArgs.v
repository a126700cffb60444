(** * module_builder/ModuleBuilder.py: the class ModuleBuilderArgs *)
From Coq Require Import ZArith List Bool Lia String Permutation.
From Verif Require Import Py Dict CharNames.
Import ListNotations.
Open Scope Z_scope.

(** ModuleBuilder.py:20-23 the three attributes *)
Record args := mkArgs { icuSourceDir : str; icuBuildDir : str; outputDir : str }.
Definition newArgs : args := mkArgs [] [] [].

Section Process.
  (** FontDocTools' ArgumentIterator is not part of the repository.  It is an iterator over
      the arguments; [nextExtra] takes the next one and raises ValueError when there is
      none or when it does not accept it. *)
  Variable accepts : str -> bool.
  Definition nextExtra (arguments : list str) : res (str * list str) :=
    match arguments with
    | [] => Err ValueError
    | v :: rest => if accepts v then Ok (v, rest) else Err ValueError
    end.
  (** ModuleBuilder.py:56-64 *)
  Definition processArgument (a : args) (argument : str) (arguments : list str) : res (args * list str) :=
    if str_eqb argument (lit "--sourceDir") then
      let* (v, rest) := nextExtra arguments in Ok (mkArgs v (icuBuildDir a) (outputDir a), rest)
    else if str_eqb argument (lit "--buildDir") then
      let* (v, rest) := nextExtra arguments in Ok (mkArgs (icuSourceDir a) v (outputDir a), rest)
    else if str_eqb argument (lit "--outputDir") then
      let* (v, rest) := nextExtra arguments in Ok (mkArgs (icuSourceDir a) (icuBuildDir a) v, rest)
    else Err ValueError.
  (** ModuleBuilder.py:66-82; an empty string counts as missing *)
  Definition completeInit (a : args) : res args :=
    match icuSourceDir a with [] => Err ValueError | _ =>
    match icuBuildDir a with [] => Err ValueError | _ =>
    match outputDir a with [] => Err ValueError | _ => Ok a end end end.
  (** ModuleBuilder.py:47-52 the loop; each pass takes at least one argument *)
  Fixpoint argLoop (fuel : nat) (seen : list str) (a : args) (arguments : list str) : res args :=
    match arguments with
    | [] => Ok a
    | argument :: rest =>
        match fuel with
        | O => Err OutOfFuel
        | S n =>
            if existsb (str_eqb argument) seen then Err ValueError
            else let* (a', rest') := processArgument a argument rest in argLoop n (argument :: seen) a' rest'
        end
    end.
  (** ModuleBuilder.py:37-54: [ModuleBuilderArgs.forArguments] *)
  Definition forArguments (argumentList : list str) : res args :=
    let* a := argLoop (List.length argumentList) [] newArgs argumentList in completeInit a.
End Process.

(** ** Facts *)
Definition nameOf (k : nat) : str :=
  match k with O => lit "--sourceDir" | S O => lit "--buildDir" | _ => lit "--outputDir" end.
Lemma name_inj i j : (i < 3)%nat -> (j < 3)%nat -> nameOf i = nameOf j -> i = j.
Proof. intros A B. destruct i as [|[|[|]]], j as [|[|[|]]]; try lia; cbn; intros; try discriminate; reflexivity. Qed.
Definition setArg (a : args) (k : nat) (v : str) : args :=
  match k with
  | O => mkArgs v (icuBuildDir a) (outputDir a)
  | S O => mkArgs (icuSourceDir a) v (outputDir a)
  | _ => mkArgs (icuSourceDir a) (icuBuildDir a) v
  end.
Definition getArg (a : args) (k : nat) : str := match k with O => icuSourceDir a | S O => icuBuildDir a | _ => outputDir a end.

Lemma process_known accepts a k v rest : (k < 3)%nat -> accepts v = true ->
  processArgument accepts a (nameOf k) (v :: rest) = Ok (setArg a k v, rest).
Proof. intros H A. destruct k as [|[|[|]]]; try lia; unfold processArgument; cbn [nextExtra]; rewrite A; reflexivity. Qed.
Lemma process_inv accepts a argument rest a' rest' : processArgument accepts a argument rest = Ok (a', rest') ->
  exists k v, (k < 3)%nat /\ argument = nameOf k /\ rest = v :: rest' /\ accepts v = true /\ a' = setArg a k v.
Proof.
  unfold processArgument. intros H.
  destruct (str_eqb argument (lit "--sourceDir")) eqn:E1; [|destruct (str_eqb argument (lit "--buildDir")) eqn:E2;
    [|destruct (str_eqb argument (lit "--outputDir")) eqn:E3; [|discriminate]]].
  - apply str_eqb_eq in E1. destruct rest as [|v r]; cbn [nextExtra bind] in H; [discriminate|]. destruct (accepts v) eqn:A; [|discriminate].
    cbn [bind] in H. exists 0%nat, v. inversion H; subst. repeat split; auto.
  - apply str_eqb_eq in E2. destruct rest as [|v r]; cbn [nextExtra bind] in H; [discriminate|]. destruct (accepts v) eqn:A; [|discriminate].
    cbn [bind] in H. exists 1%nat, v. inversion H; subst. repeat split; auto.
  - apply str_eqb_eq in E3. destruct rest as [|v r]; cbn [nextExtra bind] in H; [discriminate|]. destruct (accepts v) eqn:A; [|discriminate].
    cbn [bind] in H. exists 2%nat, v. inversion H; subst. repeat split; auto.
Qed.

(** the command line with the options of [ps], in this order *)
Definition commandLine (ps : list (nat * str)) : list str := List.concat (map (fun '(k, v) => [nameOf k; v]) ps).
Definition apply (a : args) (ps : list (nat * str)) : args := fold_left (fun a '(k, v) => setArg a k v) ps a.
Definition seenOf (ks : list nat) : list str := map nameOf ks.

Lemma seen_mem k ks : (k < 3)%nat -> Forall (fun j => (j < 3)%nat) ks -> existsb (str_eqb (nameOf k)) (seenOf ks) = true <-> In k ks.
Proof.
  intros Hk F. rewrite existsb_exists. split.
  - intros (x & Hin & E). apply str_eqb_eq in E. subst x. apply in_map_iff in Hin as (j & E & Hj).
    rewrite Forall_forall in F. apply name_inj in E; auto. subst; auto.
  - intros H. exists (nameOf k). split; [apply in_map; exact H|apply str_eqb_refl].
Qed.
Lemma loop_iff accepts : forall n ks a arguments r, (List.length arguments <= n)%nat -> Forall (fun j => (j < 3)%nat) ks -> NoDup ks ->
  (argLoop accepts n (seenOf ks) a arguments = Ok r <->
   exists ps, arguments = commandLine ps /\ Forall (fun p => (fst p < 3)%nat /\ accepts (snd p) = true) ps /\ NoDup (rev (map fst ps) ++ ks) /\ r = apply a ps).
Proof.
  induction n as [|n IH]; intros ks a arguments r L F N.
  - destruct arguments as [|x xs]; [|cbn in L; lia]. cbn [argLoop]. split.
    + intros [= ->]. exists []. repeat split; auto.
    + intros (ps & E & _ & _ & ->). destruct ps as [|[k v] ps]; [reflexivity|discriminate].
  - destruct arguments as [|x xs].
    + cbn [argLoop]. split.
      * intros [= ->]. exists []. repeat split; auto.
      * intros (ps & E & _ & _ & ->). destruct ps as [|[k v] ps]; [reflexivity|discriminate].
    + cbn [argLoop]. split.
      * destruct (existsb (str_eqb x) (seenOf ks)) eqn:S; [discriminate|]. destruct (processArgument accepts a x xs) as [[a' rest']|e] eqn:P; [|discriminate].
        cbn [bind]. intros H. apply process_inv in P as (k & v & Hk & -> & -> & A & ->).
        change (nameOf k :: seenOf ks) with (seenOf (k :: ks)) in H.
        assert (~ In k ks) by (intros X; apply (seen_mem k ks Hk F) in X; congruence).
        apply IH in H; [|cbn in L; lia|constructor; auto|constructor; auto].
        destruct H as (ps & -> & Fp & Np & ->). exists ((k, v) :: ps). split; [reflexivity|]. split; [constructor; auto|]. split; [|reflexivity].
        cbn [map fst rev]. rewrite <- app_assoc. exact Np.
      * intros (ps & E & Fp & Np & ->). destruct ps as [|[k v] ps]; [discriminate|].
        change (commandLine ((k, v) :: ps)) with (nameOf k :: v :: commandLine ps) in E. injection E as -> ->.
        inversion Fp as [|? ? [Hk A] Fp']; subst. cbn [fst snd] in *.
        cbn [map fst rev] in Np. rewrite <- app_assoc in Np. cbn [app] in Np.
        assert (K : ~ In k ks).
        { apply NoDup_remove_2 in Np. intros X. apply Np. apply in_or_app. right; auto. }
        destruct (existsb (str_eqb (nameOf k)) (seenOf ks)) eqn:S; [apply (seen_mem k ks Hk F) in S; contradiction|].
        rewrite process_known by assumption. cbn [bind]. change (nameOf k :: seenOf ks) with (seenOf (k :: ks)).
        apply IH; [cbn in L; lia|constructor; auto|constructor; auto|]. exists ps. repeat split; auto.
Qed.

Lemma apply_get : forall ps a k, (k < 3)%nat -> Forall (fun p => (fst p < 3)%nat) ps -> NoDup (map fst ps) ->
  getArg (apply a ps) k = match find (fun p => Nat.eqb (fst p) k) ps with Some (_, v) => v | None => getArg a k end.
Proof.
  induction ps as [|[j v] ps IH]; intros a k Hk F N; [reflexivity|]. cbn [apply fold_left find fst].
  inversion F; subst. cbn [map fst] in N. inversion N; subst. cbn [fst] in *.
  change (fold_left (fun a '(k, v) => setArg a k v) ps (setArg a j v)) with (apply (setArg a j v) ps). rewrite IH by auto.
  destruct (Nat.eqb_spec j k) as [->|D].
  - assert (G : find (fun p => Nat.eqb (fst p) k) ps = None).
    { destruct (find (fun p => Nat.eqb (fst p) k) ps) as [[k' v']|] eqn:G; [|reflexivity]. apply find_some in G as [G1 G2]. cbn [fst] in G2.
      apply Nat.eqb_eq in G2. subst. exfalso. apply H3. change k with (fst (k, v')). apply in_map. exact G1. }
    rewrite G. destruct k as [|[|[|]]]; try lia; reflexivity.
  - destruct (find (fun p => Nat.eqb (fst p) k) ps) as [[? ?]|]; [reflexivity|].
    destruct k as [|[|[|]]], j as [|[|[|]]]; try lia; reflexivity.
Qed.
Lemma find_unique (ps : list (nat * str)) k v : NoDup (map fst ps) -> In (k, v) ps -> find (fun p => Nat.eqb (fst p) k) ps = Some (k, v).
Proof.
  induction ps as [|[j w] ps IH]; intros N I; [destruct I|]. cbn [map fst] in N. inversion N; subst. cbn [find fst].
  destruct I as [[= -> ->]|I]; [rewrite Nat.eqb_refl; reflexivity|].
  destruct (Nat.eqb_spec j k) as [->|D]; [|apply IH; auto].
  exfalso. apply H1. change k with (fst (k, v)). apply in_map. exact I.
Qed.
Definition options (a : args) : list (nat * str) := [(0%nat, icuSourceDir a); (1%nat, icuBuildDir a); (2%nat, outputDir a)].
Lemma args_ext a b : (forall k, (k < 3)%nat -> getArg a k = getArg b k) -> a = b.
Proof.
  intros H. pose proof (H 0%nat ltac:(lia)). pose proof (H 1%nat ltac:(lia)). pose proof (H 2%nat ltac:(lia)).
  destruct a, b; cbn [getArg icuSourceDir icuBuildDir outputDir] in *. congruence.
Qed.
Lemma complete_iff a r : completeInit a = Ok r <-> r = a /\ forall k, (k < 3)%nat -> getArg a k <> [].
Proof.
  destruct a as [s b o]. unfold completeInit. cbn [icuSourceDir icuBuildDir outputDir]. split.
  - destruct s as [|s0 s]; [discriminate|]. destruct b as [|b0 b]; [discriminate|]. destruct o as [|o0 o]; [discriminate|].
    intros [= <-]. split; [reflexivity|]. intros k Hk. destruct k as [|[|[|]]]; try lia; discriminate.
  - intros [-> N]. pose proof (N 0%nat ltac:(lia)). pose proof (N 1%nat ltac:(lia)). pose proof (N 2%nat ltac:(lia)).
    cbn [getArg icuSourceDir icuBuildDir outputDir] in *. destruct s; [congruence|]. destruct b; [congruence|]. destruct o; [congruence|]. reflexivity.
Qed.
Lemma options_in a k v : In (k, v) (options a) <-> (k < 3)%nat /\ v = getArg a k.
Proof.
  unfold options. split.
  - intros [[= <- <-]|[[= <- <-]|[[= <- <-]|[]]]]; split; (lia || reflexivity).
  - intros [Hk ->]. destruct k as [|[|[|]]]; try lia; cbn [In getArg]; auto.
Qed.
Lemma NoDup_fst (ps : list (nat * str)) : NoDup (map fst ps) -> NoDup ps.
Proof. apply NoDup_map_inv. Qed.
Theorem forArguments_iff accepts l a : forArguments accepts l = Ok a <->
  (forall k, (k < 3)%nat -> getArg a k <> [] /\ accepts (getArg a k) = true) /\
  exists ps, Permutation ps (options a) /\ l = commandLine ps.
Proof.
  unfold forArguments. split.
  - destruct (argLoop accepts (List.length l) [] newArgs l) as [r|e] eqn:E; [|discriminate]. cbn [bind]. intros H.
    apply complete_iff in H as [-> N]. change (@nil str) with (seenOf []) in E.
    apply loop_iff in E; [|lia|constructor|constructor]. destruct E as (ps & -> & Fp & Np & Er). rewrite app_nil_r in Np.
    assert (Np' : NoDup (map fst ps)) by (rewrite <- (rev_involutive (map fst ps)); apply NoDup_rev; exact Np).
    assert (Fk : Forall (fun p : nat * str => (fst p < 3)%nat) ps) by (eapply Forall_impl; [|exact Fp]; cbv beta; tauto).
    assert (G : forall k, (k < 3)%nat -> In (k, getArg r k) ps).
    { intros k Hk. pose proof (apply_get ps newArgs k Hk Fk Np') as A. rewrite <- Er in A. specialize (N k Hk).
      destruct (find (fun p => Nat.eqb (fst p) k) ps) as [[j v]|] eqn:X.
      - apply find_some in X as [X1 X2]. apply Nat.eqb_eq in X2. cbn [fst] in X2. subst j. rewrite A. exact X1.
      - exfalso. apply N. rewrite A. destruct k as [|[|[|]]]; reflexivity. }
    split.
    + intros k Hk. split; [auto|]. rewrite Forall_forall in Fp. apply (Fp _ (G k Hk)).
    + exists ps. split; [|reflexivity]. apply NoDup_Permutation.
      * apply NoDup_fst; exact Np'.
      * apply NoDup_fst. repeat (constructor; [cbn; intuition discriminate|]). constructor.
      * intros [k v]. rewrite options_in. split.
        -- intros I. rewrite Forall_forall in Fk. pose proof (Fk _ I) as Hk. cbn [fst] in Hk. split; [exact Hk|].
           pose proof (find_unique ps k v Np' I). pose proof (find_unique ps k _ Np' (G k Hk)). congruence.
        -- intros [Hk ->]. apply G; exact Hk.
  - intros (Ha & ps & P & ->).
    assert (Fp : Forall (fun p => (fst p < 3)%nat /\ accepts (snd p) = true) ps).
    { apply Forall_forall. intros [k v] I. apply (Permutation_in _ P) in I. apply options_in in I as [Hk ->]. split; [exact Hk|]. apply Ha; exact Hk. }
    assert (Np : NoDup (map fst ps)).
    { eapply Permutation_NoDup; [apply Permutation_sym, Permutation_map, P|]. repeat (constructor; [cbn; intuition discriminate|]). constructor. }
    assert (E : argLoop accepts (List.length (commandLine ps)) [] newArgs (commandLine ps) = Ok (apply newArgs ps)).
    { change (@nil str) with (seenOf []). apply loop_iff; [lia|constructor|constructor|]. exists ps. split; [reflexivity|]. split; [exact Fp|].
      split; [|reflexivity]. rewrite app_nil_r. apply NoDup_rev. exact Np. }
    rewrite E. cbn [bind].
    assert (A : apply newArgs ps = a).
    { apply args_ext. intros k Hk. rewrite apply_get; [|exact Hk|eapply Forall_impl; [|exact Fp]; cbv beta; tauto|exact Np].
      rewrite (find_unique ps k (getArg a k) Np); [reflexivity|]. apply (Permutation_in _ (Permutation_sym P)). apply options_in. auto. }
    rewrite A. apply complete_iff. split; [reflexivity|]. intros k Hk. apply Ha; exact Hk.
Qed.
Lemma forArguments_total accepts l : (exists a, forArguments accepts l = Ok a) \/ forArguments accepts l = Err ValueError.
Proof.
  unfold forArguments.
  assert (H : forall n seen a xs, (List.length xs <= n)%nat -> (exists r, argLoop accepts n seen a xs = Ok r) \/ argLoop accepts n seen a xs = Err ValueError).
  { induction n as [|n IH]; intros seen a xs L.
    - destruct xs; [left; eexists; reflexivity|cbn in L; lia].
    - destruct xs as [|x xs]; [left; eexists; reflexivity|]. cbn [argLoop]. destruct (existsb (str_eqb x) seen); [right; reflexivity|].
      assert (P : (exists a' r', processArgument accepts a x xs = Ok (a', r') /\ (List.length r' <= List.length xs)%nat) \/ processArgument accepts a x xs = Err ValueError).
      { unfold processArgument. destruct xs as [|v r]; cbn [nextExtra bind].
        - destruct (str_eqb x (lit "--sourceDir")); [auto|]. destruct (str_eqb x (lit "--buildDir")); [auto|]. destruct (str_eqb x (lit "--outputDir")); auto.
        - destruct (accepts v); cbn [bind]; destruct (str_eqb x (lit "--sourceDir")); try (left; do 2 eexists; split; [reflexivity|cbn; lia]); auto;
          destruct (str_eqb x (lit "--buildDir")); try (left; do 2 eexists; split; [reflexivity|cbn; lia]); auto;
          destruct (str_eqb x (lit "--outputDir")); try (left; do 2 eexists; split; [reflexivity|cbn; lia]); auto. }
      destruct P as [(a' & r' & -> & L')| ->]; [|right; reflexivity]. cbn [bind]. apply IH. cbn in L. lia. }
  destruct (H (List.length l) [] newArgs l (le_n _)) as [[r ->]| ->]; [|right; reflexivity]. cbn [bind]. unfold completeInit.
  destruct (icuSourceDir r); [auto|]. destruct (icuBuildDir r); [auto|]. destruct (outputDir r); [auto|]. left. eexists. reflexivity.
Qed.
