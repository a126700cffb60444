(** * Property C100, continued: numbers with commas between them are a tuple, whether or not a comma ends the line *)
From Coq Require Import ZArith List Bool Lia String.
From Verif Require Import Py Dict CharNames PyText PyModule PyParse ParseFacts.
Import ListNotations.
Open Scope string_scope.
Open Scope list_scope.
Open Scope Z_scope.
Local Notation length := List.length.

(** [, 0x10, 2], and then perhaps a comma *)
Fixpoint more (vs : list str) (comma : bool) : str := match vs with [] => if comma then [44] else [] | v :: r => lit ", " ++ v ++ more r comma end.
Fixpoint moreToks (zs : list Z) (comma : bool) : list tok := match zs with [] => if comma then [TOp 44] else [] | z :: r => TOp 44 :: TInt z :: moreToks r comma end.
Lemma more_bound vs comma s : bound (more vs comma ++ 10 :: s).
Proof. destruct vs; [destruct comma; reflexivity|reflexivity]. Qed.
Lemma L_more vs zs comma s : Forall2 numeral vs zs -> L 0 false (more vs comma ++ 10 :: s) = oapp (moreToks zs comma) (ocons TNl (L 0 true s)).
Proof.
  induction 1 as [|v z vs zs N _ IH].
  - destruct comma; cbn [more moreToks app]; [rewrite L_comma, L_nl|rewrite L_nl]; destruct (L 0 true s); reflexivity.
  - cbn [more moreToks]. change ((lit ", " ++ v ++ more vs comma) ++ 10 :: s) with (44 :: 32 :: (v ++ more vs comma) ++ 10 :: s). rewrite <- app_assoc, L_comma, L_space.
    rewrite (L_numeral _ _ v z _ N (more_bound vs comma s)), IH. destruct (ocons TNl (L 0 true s)); reflexivity.
Qed.
Lemma pTuple_more zs : forall comma z n r, (2 * length zs + 4 <= n)%nat -> pTuple n (TInt z :: moreToks zs comma ++ TNl :: r) = Some (map EInt (z :: zs), r).
Proof.
  induction zs as [|y zs IH]; intros comma z n r LN; destruct n as [|[|[|[|n]]]]; cbn [length] in LN; try lia.
  - destruct comma; reflexivity.
  - cbn [moreToks app].
    change (pTuple (S (S (S (S n)))) (TInt z :: TOp 44 :: TInt y :: moreToks zs comma ++ TNl :: r)) with
      (match pTuple (S (S (S n))) (TInt y :: moreToks zs comma ++ TNl :: r) with Some (l, r) => Some (EInt z :: l, r) | None => None end).
    rewrite IH by lia. reflexivity.
Qed.
Lemma pRight_more zs comma z n r : zs <> [] \/ comma = true -> (2 * length zs + 5 <= n)%nat -> pRight n (TInt z :: moreToks zs comma ++ TNl :: r) = Some (ETuple (map EInt (z :: zs)), r).
Proof.
  intros H LN. destruct n as [|[|[|[|n]]]]; try lia. destruct zs as [|y zs].
  - destruct H as [H|H]; [contradiction|subst comma]. reflexivity.
  - cbn [moreToks app]. cbn [length] in LN. change (pRight (S (S (S (S n)))) (TInt z :: TOp 44 :: TInt y :: moreToks zs comma ++ TNl :: r)) with
      (match pTuple (S (S (S (S n)))) (TInt y :: moreToks zs comma ++ TNl :: r) with Some (l, r) => Some (ETuple (EInt z :: l), r) | None => None end).
    rewrite pTuple_more by lia. reflexivity.
Qed.
Lemma moreToks_length zs comma : (2 * length zs <= length (moreToks zs comma))%nat.
Proof. induction zs as [|z zs IH]; cbn [moreToks length]; lia. Qed.
Lemma eval_ints env zs : eval env (ETuple (map EInt zs)) = Ok (VTuple (map VInt zs)).
Proof.
  cbn [eval]. assert (E : forall ys, (fix go l := match l with [] => Ok [] | a :: r => let* v := eval env a in let* vs := go r in Ok (v :: vs) end) (map EInt ys) = Ok (map VInt ys)).
  { induction ys as [|y ys IH]; [reflexivity|]. cbn [map]. rewrite IH. reflexivity. }
  rewrite E. reflexivity.
Qed.
Section Modules.
Variable mods : str -> option (dict pval).
Theorem C100_tuples : forall x v z vs zs comma s l, ident x -> numeral v z -> Forall2 numeral vs zs -> zs <> [] \/ comma = true -> reads mods s l ->
  reads mods (x ++ lit " = " ++ v ++ more vs comma ++ 10 :: s) (SAssign x (ETuple (map EInt (z :: zs))) :: l).
Proof.
  intros x v z vs zs comma s l I N F H (ts & A & B). exists (TName x :: TOp 61 :: (TInt z :: moreToks zs comma) ++ TNl :: ts). split.
  - rewrite (L_ident _ _ x) by (try exact I; reflexivity). change (lit " = " ++ v ++ more vs comma ++ 10 :: s) with (32 :: 61 :: 32 :: v ++ more vs comma ++ 10 :: s).
    rewrite L_space, L_equals, L_space. rewrite (L_numeral _ _ v z _ N (more_bound vs comma s)), (L_more vs zs comma s F), A.
    cbn [ocons oapp app]. reflexivity.
  - apply assign_step; [apply I| |exact B]. cbn [app]. apply pRight_more; [exact H|]. pose proof (moreToks_length zs comma). cbn [length]. rewrite app_length. lia.
Qed.
(** a line with one number and a comma is a tuple of one: the constants that C79 finds to be no integers *)
Theorem C100_tuple_value : forall x v z vs zs comma, ident x -> numeral v z -> Forall2 numeral vs zs -> zs <> [] \/ comma = true ->
  importText mods (x ++ lit " = " ++ v ++ more vs comma ++ [10]) = Ok [(x, VTuple (map VInt (z :: zs)))].
Proof.
  intros x v z vs zs comma I N F H. unfold importText. rewrite (reads_parse mods _ _ (C100_tuples x v z vs zs comma [] [] I N F H (reads_nil mods))).
  unfold exec. cbn [run step]. rewrite eval_ints. reflexivity.
Qed.
End Modules.
Print Assumptions C100_tuples.
Print Assumptions C100_tuple_value.
Example C100_tuples_case : importText (fun _ => None) (lit "A = 0x10, 2, 3," ++ [10]) = Ok [(lit "A", VTuple [VInt 16; VInt 2; VInt 3])] /\
  importText (fun _ => None) (lit "A = 24," ++ [10]) = Ok [(lit "A", VTuple [VInt 24])] /\ importText (fun _ => None) (lit "A = 24" ++ [10]) = Ok [(lit "A", VInt 24)].
Proof. vm_compute. auto. Qed.
