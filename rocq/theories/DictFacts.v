(** * The text of UCDTypeDictionaries: facts *)
From Coq Require Import ZArith List Bool Lia ZifyBool String.
From Verif Require Import Py Dict Utilities CharNames PyText PyModule PyParse HeaderFacts ModuleBuilder BuilderFacts ParseFacts.
Import ListNotations.
Open Scope string_scope.
Open Scope list_scope.
Open Scope Z_scope.
Local Notation length := List.length.
Local Notation concat := List.concat.

(** a text that can stand between quotation marks on one line *)
Definition quoted (s : str) : Prop := Forall (fun c => c <> 34 /\ c <> 92 /\ c <> 10) s.
Lemma L_quoted d b s x r : quoted s -> x <> 34 -> L d b (34 :: s ++ 34 :: x :: r) = ocons (TStr s) (L d false (x :: r)).
Proof.
  intros Q X. assert (SP : span (fun c => negb ((c =? 34) || (c =? 92) || (c =? 10))) (s ++ 34 :: x :: r) = (s, 34 :: x :: r)).
  { apply span_intro; [|reflexivity]. apply forallb_forall. intros c I. unfold quoted in Q. rewrite Forall_forall in Q. specialize (Q c I). lia. }
  assert (T : starts [34; 34; 34] (34 :: s ++ 34 :: x :: r) = false).
  { cbn [starts]. destruct s as [|c [|c2 s]]; cbn [app]; change (34 =? 34) with true; cbn [andb].
    - replace (34 =? x) with false by lia. reflexivity.
    - inversion Q; subst. replace (34 =? c) with false by lia. reflexivity.
    - inversion Q; subst. replace (34 =? c) with false by lia. reflexivity. }
  unfold L at 1. cbn [length lexF]. rewrite T, SP. change (34 =? 10) with false. change (blank 34) with false. change (34 =? 35) with false. change ((34 =? 34) || (34 =? 39)) with true. cbv iota.
  change (34 =? 34) with true. cbv iota. f_equal. apply L_eq. rewrite app_length. cbn. lia.
Qed.
Lemma L_brace d b r : L d b (123 :: r) = ocons (TOp 123) (L (S d) false r).
Proof. reflexivity. Qed.
Lemma L_unbrace d b r : L (S d) b (125 :: r) = ocons (TOp 125) (L d false r).
Proof. reflexivity. Qed.
Lemma L_colon d b r : L d b (58 :: r) = ocons (TOp 58) (L d false r).
Proof. reflexivity. Qed.

Definition entryToks (e : str * str) : list tok := [TName (fst e); TOp 58; TStr (snd e)].
Definition entryOk (e : str * str) : Prop := ident (fst e) /\ quoted (snd e).
Fixpoint entriesToks (l : list (str * str)) : list tok :=
  match l with [] => [] | [e] => entryToks e | e :: r => entryToks e ++ TOp 44 :: entriesToks r end.
Lemma L_entry d e x r : entryOk e -> x <> 34 -> L (S d) false (lineOf e ++ x :: r) = oapp (entryToks e) (L (S d) false (x :: r)).
Proof.
  intros [I Q] X. unfold lineOf. rewrite <- !app_assoc. change (lit "    ") with [32; 32; 32; 32]. cbn [app]. rewrite !L_space.
  rewrite (L_ident _ _ (fst e)) by (try exact I; reflexivity). change (lit ": " ++ 34 :: snd e ++ 34 :: x :: r) with (58 :: 32 :: 34 :: snd e ++ 34 :: x :: r). rewrite L_colon, L_space, L_quoted by assumption.
  destruct (L (S d) false (x :: r)); reflexivity.
Qed.
Lemma L_entries d l r : Forall entryOk l -> L (S d) false (join (lit "," ++ [10]) (map lineOf l) ++ 10 :: r) = oapp (entriesToks l) (L (S d) false r).
Proof.
  induction 1 as [|e l H F IH]; [cbn [map join entriesToks app]; rewrite L_nl_in; destruct (L (S d) false r); reflexivity|].
  destruct l as [|e2 l]; [cbn [map join entriesToks]; rewrite L_entry by (try exact H; discriminate); reflexivity|].
  change (join (lit "," ++ [10]) (map lineOf (e :: e2 :: l))) with (lineOf e ++ (44 :: 10 :: []) ++ join (lit "," ++ [10]) (map lineOf (e2 :: l))).
  rewrite <- !app_assoc. cbn [app]. rewrite L_entry by (try exact H; discriminate). rewrite L_comma, L_nl_in, IH. change (entriesToks (e :: e2 :: l)) with (entryToks e ++ TOp 44 :: entriesToks (e2 :: l)).
  destruct (L (S d) false r); [|reflexivity]. cbn [oapp ocons]. rewrite <- app_assoc. reflexivity.
Qed.

Definition exprOf (e : str * str) : expr * expr := (EName (fst e), EStr (snd e)).
Lemma pExpr_name n x o r : keyword x = false -> o <> 40 -> prec o = None -> pExpr (S (S n)) 0 (TName x :: TOp o :: r) = Some (EName x, TOp o :: r).
Proof.
  intros K O P. cbn [pExpr pUnary]. rewrite K. assert (E : match o with 40 => match pExpr n 0 r with Some (a, TOp 41 :: r) => Some (ECall (EName x) a, r) | _ => None end | _ => Some (EName x, TOp o :: r) end = Some (EName x, TOp o :: r)).
  { destruct o as [|p|p]; try reflexivity. do 6 (destruct p as [p|p|]; try reflexivity). elim O. reflexivity. }
  rewrite E. cbn [pLoop]. rewrite P. reflexivity.
Qed.
Lemma pExpr_str n s o r : prec o = None -> pExpr (S (S n)) 0 (TStr s :: TOp o :: r) = Some (EStr s, TOp o :: r).
Proof. intros P. cbn [pExpr pUnary pLoop]. rewrite P. reflexivity. Qed.
Lemma pEntries_step n e x r : entryOk e -> pEntries (S (S (S n))) (entryToks e ++ TOp x :: r) =
  if prec x then pEntries (S (S (S n))) (entryToks e ++ TOp x :: r) else
  if x =? 44 then match pEntries (S (S n)) r with Some (l, r) => Some (exprOf e :: l, r) | None => None end
  else if x =? 125 then Some ([exprOf e], r) else None.
Proof.
  intros [[_ K] Q]. destruct (prec x) eqn:P; [reflexivity|]. unfold entryToks. cbn [app].
  change (pEntries (S (S (S n))) (TName (fst e) :: TOp 58 :: TStr (snd e) :: TOp x :: r)) with
    (match pExpr (S (S n)) 0 (TName (fst e) :: TOp 58 :: TStr (snd e) :: TOp x :: r) with
     | Some (k, TOp 58 :: r) => match pExpr (S (S n)) 0 r with
         | Some (v, TOp x :: r) => if x =? 44 then match pEntries (S (S n)) r with Some (l, r) => Some ((k, v) :: l, r) | None => None end else if x =? 125 then Some ([(k, v)], r) else None
         | _ => None end
     | _ => None end).
  rewrite pExpr_name by (try exact K; try discriminate; reflexivity). rewrite pExpr_str by exact P. reflexivity.
Qed.
Lemma pEntries_all l : Forall entryOk l -> forall n r, (length l + 3 <= n)%nat -> pEntries n (entriesToks l ++ TOp 125 :: r) = Some (map exprOf l, r).
Proof.
  induction 1 as [|e l H F IH]; intros n r LN; (destruct n as [|[|[|n]]]; try (cbn in LN; lia)); [reflexivity|].
  destruct l as [|e2 l].
  - cbn [entriesToks]. rewrite pEntries_step by exact H. reflexivity.
  - change (entriesToks (e :: e2 :: l)) with (entryToks e ++ TOp 44 :: entriesToks (e2 :: l)). rewrite <- app_assoc. cbn [app]. rewrite pEntries_step by exact H. change (prec 44) with (@None (Z * binop)). cbv iota. change (44 =? 44) with true. cbv iota.
    rewrite IH by (cbn [length] in *; lia). reflexivity.
Qed.
Lemma entriesToks_length l : (length l <= length (entriesToks l))%nat.
Proof. induction l as [|e [|e2 l] IH]; [cbn; lia|cbn; lia|]. change (entriesToks (e :: e2 :: l)) with (entryToks e ++ TOp 44 :: entriesToks (e2 :: l)). rewrite app_length. cbn [length] in *. lia. Qed.

Section Modules.
Variable mods : str -> option (dict pval).
Lemma reads_dict x l s p : ident x -> Forall entryOk l -> reads mods s p ->
  reads mods (render (SAssign x (EDict (map exprOf l))) ++ s) (SAssign x (EDict (map exprOf l)) :: p).
Proof.
  intros I F R. apply reads_nl in R. destruct R as (ts & A & B).
  exists (TName x :: TOp 61 :: (TOp 123 :: entriesToks l ++ [TOp 125]) ++ TNl :: ts). split.
  - unfold render. assert (M : map (fun '(k, v) => match k, v with EName a, EStr b => lit "    " ++ a ++ lit ": " ++ [34] ++ b ++ [34] | _, _ => [] end) (map exprOf l) = map lineOf l).
    { rewrite map_map. apply map_ext. intros [a b]. reflexivity. }
    rewrite M. clear M. rewrite <- !app_assoc. rewrite (L_ident _ _ x) by (try exact I; reflexivity).
    change (lit " = {" ++ [10] ++ join (lit "," ++ [10]) (map lineOf l) ++ [10] ++ lit "}" ++ [10; 10] ++ s) with (32 :: 61 :: 32 :: 123 :: 10 :: join (lit "," ++ [10]) (map lineOf l) ++ 10 :: 125 :: 10 :: 10 :: s).
    rewrite L_space, L_equals, L_space, L_brace, L_nl_in, L_entries by exact F. rewrite L_unbrace. rewrite L_nl, A. cbn [ocons oapp app]. rewrite <- !app_assoc. reflexivity.
  - apply assign_step; [apply I| |exact B]. cbn [app]. rewrite <- !app_assoc. cbn [app]. unfold pRight.
    set (n := (4 * length (TOp 123 :: entriesToks l ++ TOp 125 :: TNl :: ts) + 8)%nat). assert (LN : (length l + 8 <= n)%nat).
    { unfold n. cbn [length]. rewrite app_length. pose proof (entriesToks_length l). lia. }
    destruct n as [|[|n]]; try lia.
    change (pExpr (S (S n)) 0 (TOp 123 :: entriesToks l ++ TOp 125 :: TNl :: ts)) with (match pUnary (S n) (TOp 123 :: entriesToks l ++ TOp 125 :: TNl :: ts) with Some (a, r) => pLoop (S n) 0 a r | None => None end).
    change (pUnary (S n) (TOp 123 :: entriesToks l ++ TOp 125 :: TNl :: ts)) with (match pEntries n (entriesToks l ++ TOp 125 :: TNl :: ts) with Some (l, r) => Some (EDict l, r) | None => None end).
    rewrite pEntries_all by (try exact F; lia). reflexivity.
Qed.
Lemma reads_import m e s p : ident m -> mods m = Some e -> reads mods s p -> reads mods (lit "from ." ++ m ++ lit " import *" ++ 10 :: s) (SImport e :: p).
Proof.
  intros I M (ts & A & B). exists (TName (lit "from") :: TOp 46 :: TName m :: TName (lit "import") :: TOp 42 :: TNl :: ts). split.
  - change (lit "from ." ++ m ++ lit " import *" ++ 10 :: s) with (lit "from" ++ 32 :: 46 :: m ++ 32 :: lit "import" ++ 32 :: 42 :: 10 :: s).
    replace (lit "from") with (102 :: lit "rom") by reflexivity. replace (lit "import") with (105 :: lit "mport") by reflexivity.
    rewrite L_name by reflexivity. rewrite L_space. assert (D : forall d b r, L d b (46 :: r) = ocons (TOp 46) (L d false r)) by reflexivity. rewrite D. clear D.
    rewrite (L_ident _ _ m) by (try exact I; reflexivity). rewrite L_space. rewrite L_name by reflexivity. rewrite L_space.
    assert (D : forall d b r, L d b (42 :: r) = ocons (TOp 42) (L d false r)) by reflexivity. rewrite D, L_nl, A. reflexivity.
  - cbn [pStmts]. change (str_eqb (lit "from") (lit "from")) with true. change (str_eqb (lit "import") (lit "import")) with true. cbv iota. rewrite M.
    rewrite (pStmts_mono _ _ _ _ _ B); [reflexivity|]. cbn [length]. lia.
Qed.
End Modules.

(** ** Importing *)
Definition public_name (x : str) : Prop := hd 0 x <> 95.
Lemma public_iff x : public_name x <-> public x = true.
Proof.
  unfold public_name. destruct x as [|c x]; [cbn; split; [reflexivity|discriminate]|]. cbn [hd]. split.
  - intros H. unfold public. destruct c as [|p|p]; try reflexivity. do 7 (destruct p as [p|p|]; try reflexivity). elim H. reflexivity.
  - intros H ->. discriminate.
Qed.
Lemma import_find m : NoDup (map fst m) -> forall env x, public_name x -> dict_find (import_all env m) x = match dict_find m x with Some v => Some v | None => dict_find env x end.
Proof.
  induction m as [|[n v] m IH]; intros ND env x P; [reflexivity|]. cbn [import_all dict_find]. cbn [map] in ND. inversion ND as [|? ? N ND']; subst. rewrite IH by assumption.
  destruct (str_eqb n x) eqn:E.
  - apply str_eqb_eq in E. subst n. assert (dict_find m x = None) as ->.
    { clear - N. induction m as [|[k w] m IH]; [reflexivity|]. cbn [dict_find map fst] in *. destruct (str_eqb k x) eqn:E; [apply str_eqb_eq in E; elim N; left; exact E|]. apply IH. intros I. apply N. right. exact I. }
    apply public_iff in P. rewrite P, find_set, str_eqb_refl. reflexivity.
  - destruct (dict_find m x); [reflexivity|]. destruct (public n); [|reflexivity]. rewrite find_set, E. reflexivity.
Qed.
Lemma set_nodup {V} (d : dict V) k v : NoDup (map fst d) -> NoDup (map fst (dict_set d k v)) /\ (forall x, In x (map fst (dict_set d k v)) <-> x = k \/ In x (map fst d)).
Proof.
  induction d as [|[j w] d IH]; intros ND; cbn [dict_set map fst].
  - split; [constructor; [intros []|constructor]|]. intros x. cbn. intuition.
  - cbn [map fst] in ND. inversion ND as [|? ? N ND']; subst. destruct (IH ND') as [IH1 IH2]. destruct (str_eqb j k) eqn:E; cbn [map fst].
    + apply str_eqb_eq in E. subst j. split; [constructor; assumption|]. intros x. cbn. intuition.
    + split; [constructor; [rewrite IH2; intros [->|I]; [rewrite str_eqb_refl in E; discriminate|contradiction]|exact IH1]|]. intros x. cbn. rewrite IH2. intuition.
Qed.
Lemma import_nodup m : forall env, NoDup (map fst env) -> NoDup (map fst (import_all env m)).
Proof. induction m as [|[n v] m IH]; intros env ND; [exact ND|]. cbn [import_all]. apply IH. destruct (public n); [apply set_nodup; exact ND|exact ND]. Qed.
Lemma run_nodup l : forall env env', NoDup (map fst env) -> run env l = Ok env' -> NoDup (map fst env').
Proof.
  induction l as [|s l IH]; intros env env' ND R; cbn [run] in R; [injection R as <-; exact ND|]. destruct (step env s) as [e1|] eqn:S1; [|discriminate]. cbn [bind] in R. apply (IH e1); [|exact R].
  destruct s; cbn [step] in S1.
  - destruct (eval env e); [|discriminate]. cbn [bind] in S1. injection S1 as <-. apply set_nodup. exact ND.
  - injection S1 as <-. apply set_nodup. exact ND.
  - injection S1 as <-. apply import_nodup. exact ND.
Qed.
Lemma importText_nodup mods s env : importText mods s = Ok env -> NoDup (map fst env).
Proof. unfold importText. destruct (parseModule mods s); [|discriminate]. apply run_nodup. constructor. Qed.
