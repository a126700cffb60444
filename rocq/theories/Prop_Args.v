(** * Property C91: the command line of the module builder *)
From Coq Require Import ZArith List Bool Lia String Permutation.
From Verif Require Import Py Dict CharNames BuilderArgs.
Import ListNotations.
Open Scope string_scope.
Open Scope list_scope.
Open Scope Z_scope.

(** ** C91

    [accepts] is what the argument iterator takes as the value of an option (it is not
    part of the repository).  A command line is accepted exactly if it consists of the
    three options, each once, in any order, each followed by a value that is accepted and
    not empty; and then the attributes are these values.  Everything else is a ValueError. *)
Theorem C91_accepted : forall accepts l a, forArguments accepts l = Ok a <->
  (forall v, In v [icuSourceDir a; icuBuildDir a; outputDir a] -> v <> [] /\ accepts v = true) /\
  exists ps, Permutation ps [(lit "--sourceDir", icuSourceDir a); (lit "--buildDir", icuBuildDir a); (lit "--outputDir", outputDir a)] /\
    l = List.concat (map (fun p => [fst p; snd p]) ps).
Proof.
  intros accepts l a. rewrite forArguments_iff.
  assert (V : (forall k, (k < 3)%nat -> getArg a k <> [] /\ accepts (getArg a k) = true) <->
              (forall v, In v [icuSourceDir a; icuBuildDir a; outputDir a] -> v <> [] /\ accepts v = true)).
  { split.
    - intros H v [<-|[<-|[<-|[]]]]; [apply (H 0%nat)|apply (H 1%nat)|apply (H 2%nat)]; lia.
    - intros H k Hk. apply H. destruct k as [|[|[|]]]; try lia; cbn [getArg In]; auto. }
  rewrite V. apply and_iff_compat_l. split.
  - intros (ps & P & ->). exists (map (fun p => (nameOf (fst p), snd p)) ps). split.
    + exact (Permutation_map (fun p => (nameOf (fst p), snd p)) P).
    + unfold commandLine. rewrite map_map. f_equal. apply map_ext. intros [k v]. reflexivity.
  - intros (ps & P & ->).
    change [(lit "--sourceDir", icuSourceDir a); (lit "--buildDir", icuBuildDir a); (lit "--outputDir", outputDir a)]
      with (map (fun p => (nameOf (fst p), snd p)) (options a)) in P.
    apply Permutation_map_inv in P as (qs & -> & Q). exists qs. split; [apply Permutation_sym, Q|].
    unfold commandLine. rewrite map_map. f_equal. apply map_ext. intros [k v]. reflexivity.
Qed.
Print Assumptions C91_accepted.
Theorem C91_rejected : forall accepts l, (exists a, forArguments accepts l = Ok a) \/ forArguments accepts l = Err ValueError.
Proof. exact forArguments_total. Qed.
Print Assumptions C91_rejected.
Example C91_case :
  forArguments (fun _ => true) (map lit ["--outputDir"; "out"; "--sourceDir"; "icu/source"; "--buildDir"; "icu/build"]) =
    Ok (mkArgs (lit "icu/source") (lit "icu/build") (lit "out")) /\
  forArguments (fun _ => true) (map lit ["--outputDir"; "out"; "--outputDir"; "other"]) = Err ValueError /\
  forArguments (fun _ => true) (map lit ["--outputDir"; "out"; "--sourceDir"; ""; "--buildDir"; "b"]) = Err ValueError.
Proof. repeat split; vm_compute; reflexivity. Qed.
