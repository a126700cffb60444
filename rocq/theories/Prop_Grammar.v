(** * C102, continued: which names and lists the reader of modules accepts *)
From Coq Require Import ZArith List Bool Lia ZifyBool String.
From Verif Require Import Py Dict CharNames PyText PyModule PyParse ParseFacts ExprFacts.
Import ListNotations.
Open Scope string_scope.
Open Scope list_scope.
Open Scope Z_scope.
Local Notation length := List.length.

Definition letters : str := lit "_ABCDEFGHIJKLMNOPQRSTUVWXYZabcdefghijklmnopqrstuvwxyz".
Definition figures : str := lit "0123456789".
Definition all_in (p : Z -> bool) (s : str) : bool := forallb p s.
(** *** A module of one assignment to any ASCII identifier that is no keyword is read. *)
Theorem C102_names : forall mods c w v z, In c letters -> (forall x, In x w -> In x (letters ++ figures)) -> ~ In (c :: w) keywords -> numeral v z ->
  parseModule mods ((c :: w) ++ lit " = " ++ v ++ [10]) = Some [SAssign (c :: w) (EInt z)].
Proof.
  intros mods c w v z C W K N.
  assert (L : forall x, In x letters -> letter x = true) by (apply forallb_forall; vm_compute; reflexivity).
  assert (F : forall x, In x (letters ++ figures) -> wordChar x = true) by (apply forallb_forall; vm_compute; reflexivity).
  assert (I : ident (c :: w)).
  { split; [split; [apply L, C|apply forallb_forall; intros x X; apply F, W, X]|]. unfold keyword. apply not_true_iff_false. intros E. apply existsb_exists in E as (k & Ik & Ek). apply K.
    assert (J : (c :: w) = k) by (apply str_eqb_eq; exact Ek). rewrite J. exact Ik. }
  apply (reads_parse mods). apply (reads_int mods (c :: w) v z [] []); [exact I|exact N|apply reads_nil].
Qed.
Print Assumptions C102_names.
(** *** No other character begins a name, and none but these and the digits continues one. *)
Theorem C102_other_names : forall c, (letter c = true -> In c letters) /\ (wordChar c = true -> c < 0x80 -> In c (letters ++ figures)).
Proof.
  assert (A : forall c, 0 <= c < 0x80 -> (if letter c then existsb (Z.eqb c) letters else true) && (if wordChar c then existsb (Z.eqb c) (letters ++ figures) else true) = true).
  { intros c H. assert (X : forallb (fun n => let c := Z.of_nat n in (if letter c then existsb (Z.eqb c) letters else true) && (if wordChar c then existsb (Z.eqb c) (letters ++ figures) else true)) (seq 0 128) = true) by (vm_compute; reflexivity).
    rewrite forallb_forall in X. specialize (X (Z.to_nat c)). cbv zeta in X. rewrite Z2Nat.id in X by lia. apply X. apply in_seq. lia. }
  assert (E : forall c l, existsb (Z.eqb c) l = true -> In c l) by (intros c l H; apply existsb_exists in H as (x & I & X); apply Z.eqb_eq in X; subst x; exact I).
  intros c. split.
  - intros L. assert (R : 0 <= c < 0x80) by (unfold letter in L; lia). specialize (A c R). rewrite L in A. apply andb_true_iff in A as [A _]. apply E, A.
  - intros W R. assert (R' : 0 <= c < 0x80) by (unfold wordChar in W; lia). specialize (A c R'). rewrite W in A. apply andb_true_iff in A as [_ A]. apply E, A.
Qed.
Print Assumptions C102_other_names.

(** *** Expressions with commas between them are read one by one, whatever operators they have. *)
Fixpoint commas (l : list (list tok)) : list tok := match l with [] => [] | [t] => t | t :: r => t ++ TOp 44 :: commas r end.
Lemma G_first p ts e : G p ts e -> exists t r, ts = t :: r /\ t <> TOp 41 /\ t <> TOp 93.
Proof.
  intros H. induction H as [p z|p x K|p ts e H IH|p ts e H IH|p x ts e K H IH|p o q op ts us a b Q L H1 IH1 H2 IH2];
    try (do 2 eexists; split; [reflexivity|split; discriminate]).
  destruct IH1 as (t & r & -> & N). do 2 eexists. split; [reflexivity|exact N].
Qed.
Theorem C102_lists : forall l c r n, Forall (fun p => G 0 (fst p) (snd p)) l -> c = 93 \/ c = 41 -> (2 * length (commas (map fst l)) + 2 <= n)%nat ->
  pItems n c (commas (map fst l) ++ TOp c :: r) = Some (map snd l, r).
Proof.
  induction l as [|[ts e] l IH]; intros c r n F C N.
  - destruct n as [|n]; [lia|]. cbn [map commas app pItems]. rewrite Z.eqb_refl. reflexivity.
  - apply Forall_cons_iff in F as [H F]. cbn [fst snd] in H. destruct (G_first 0 ts e H) as (t & u & T & N41 & N93).
    assert (LT : (1 <= length ts)%nat) by (rewrite T; cbn; lia).
    destruct n as [|n]; [lia|].
    assert (step : forall x rest, prec x = None -> x <> 40 -> (2 * length ts + 1 <= n)%nat -> pItems (S n) c (ts ++ TOp x :: rest) =
       if x =? 44 then match pItems n c rest with Some (l, r) => Some (e :: l, r) | None => None end else if x =? c then Some ([e], rest) else None).
    { intros x rest P X B. cbn [pItems]. rewrite (parse_expression ts e n (TOp x :: rest) H B) by (cbn [ends_at]; rewrite P; exact X).
      rewrite T. cbn [app]. destruct t as [| | | |y|]; try reflexivity. replace (y =? c) with false; [reflexivity|]. symmetry. apply Z.eqb_neq. intros ->. destruct C as [-> | ->]; [apply N93|apply N41]; reflexivity. }
    destruct l as [|p l].
    + cbn [map commas fst snd] in *. rewrite step; [|destruct C as [-> | ->]; reflexivity|lia|lia]. replace (c =? 44) with false by lia. rewrite Z.eqb_refl. reflexivity.
    + cbn [map fst snd] in *. change (commas (ts :: fst p :: map fst l)) with (ts ++ TOp 44 :: commas (fst p :: map fst l)) in *. rewrite app_length in N. cbn [length] in N.
      rewrite <- app_assoc. cbn [app]. rewrite step; [|reflexivity|lia|lia]. cbn [Z.eqb Pos.eqb].
      rewrite (IH c r n F C) by lia. reflexivity.
Qed.
Print Assumptions C102_lists.
Example C102_grammar_case : parseModule (fun _ => None) (lit "az_09 = [A | 1, -2, U(3) << 4]" ++ [10]) =
  Some [SAssign (lit "az_09") (EList [EBin OpOr (EName (lit "A")) (EInt 1); ENeg (EInt 2); EBin OpShl (ECall (EName (lit "U")) (EInt 3)) (EInt 4)])] /\
  G 0 [TName (lit "A"); TOp 124; TInt 1] (EBin OpOr (EName (lit "A")) (EInt 1)) /\ ~ In (lit "az_09") keywords.
Proof.
  split; [vm_compute; reflexivity|]. split; [apply (G_bin 0 124 1 OpOr [TName (lit "A")] [TInt 1]); [reflexivity|lia|apply G_name; reflexivity|apply G_int]|].
  vm_compute. intuition discriminate.
Qed.
