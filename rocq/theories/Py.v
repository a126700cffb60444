(** * Python semantics used by the model.

    The model is a shallow embedding: a Python [int] is a [Z] (both unbounded,
    [Z.land], [Z.lor], [Z.lxor], [Z.shiftl], [Z.shiftr], [Z.div], [Z.modulo] have
    the meaning of [&], [|], [^], [<<], [>>], [//], [%], negative operands
    included), a Python [list] is a [list], and an exception is a value. *)
From Coq Require Import ZArith List Bool Lia.
Import ListNotations.
Open Scope Z_scope.

(** The exceptions the modelled code can raise.  [OutOfFuel] is not a Python
    exception: it is the answer of a fuelled loop that has not finished. *)
Inductive exn : Type :=
| IndexError | KeyError | TypeError | ValueError | AssertionError | StructError
| ZeroDivisionError | OverflowError | SyntaxError | NameError | AttributeError | CsvError | FileNotFoundError | OSError | OutOfFuel.

Inductive res (A : Type) : Type :=
| Ok (a : A)
| Err (e : exn).
Arguments Ok {A} a.
Arguments Err {A} e.

Definition bind {A B} (x : res A) (f : A -> res B) : res B :=
  match x with Ok a => f a | Err e => Err e end.

Notation "'let*' x := e1 'in' e2" := (bind e1 (fun x => e2))
  (at level 200, x pattern, e1 at level 100, e2 at level 200, right associativity).

(** Map a raising function over a list, left to right. *)
Fixpoint mapM {A B} (f : A -> res B) (l : list A) : res (list B) :=
  match l with
  | [] => Ok []
  | x :: r => let* y := f x in let* ys := mapM f r in Ok (y :: ys)
  end.

Definition zlen {A} (l : list A) : Z := Z.of_nat (length l).

(** [chr(c)]: a one character string; a [str] is the list of its code points.  Simplified: for an int
    that does not fit a C int CPython may raise OverflowError, here it is ValueError for every other int. *)
Definition py_chr (c : Z) : res (list Z) := if (0 <=? c) && (c <=? 0x10FFFF) then Ok [c] else Err ValueError.

(** [l[i]]: negative indices count from the end, anything else out of range
    raises IndexError. *)
Definition py_get {A} (l : list A) (i : Z) : res A :=
  let k := if i <? 0 then i + zlen l else i in
  if k <? 0 then Err IndexError
  else match nth_error l (Z.to_nat k) with
       | Some x => Ok x
       | None => Err IndexError
       end.

(** [l[i] = v] for a non-negative or negative [i] in range. *)
Definition py_set {A} (l : list A) (i : Z) (v : A) : res (list A) :=
  let k := if i <? 0 then i + zlen l else i in
  if (k <? 0) || (zlen l <=? k) then Err IndexError
  else Ok (firstn (Z.to_nat k) l ++ v :: skipn (S (Z.to_nat k)) l).

(** Slice bounds as Python computes them: negative bounds count from the end,
    then both are clamped to [0, len]. *)
Definition py_bound (n i : Z) : Z :=
  let k := if i <? 0 then i + n else i in Z.max 0 (Z.min n k).

(** [l[i:j]] *)
Definition py_slice {A} (l : list A) (i j : Z) : list A :=
  let a := py_bound (zlen l) i in
  let b := py_bound (zlen l) j in
  firstn (Z.to_nat (b - a)) (skipn (Z.to_nat a) l).

(** [l[i:j] = v]; [del l[i:j]] is the case [v = []]. *)
Definition py_set_slice {A} (l : list A) (i j : Z) (v : list A) : list A :=
  let a := py_bound (zlen l) i in
  let b := Z.max a (py_bound (zlen l) j) in
  firstn (Z.to_nat a) l ++ v ++ skipn (Z.to_nat b) l.

Lemma zlen_nonneg {A} (l : list A) : 0 <= zlen l.
Proof. unfold zlen; lia. Qed.

Lemma zlen_app {A} (l1 l2 : list A) : zlen (l1 ++ l2) = zlen l1 + zlen l2.
Proof. unfold zlen; rewrite app_length; lia. Qed.

Lemma zlen_cons {A} (x : A) l : zlen (x :: l) = zlen l + 1.
Proof. unfold zlen; simpl length; lia. Qed.

Lemma zlen_nil {A} : zlen (@nil A) = 0.
Proof. reflexivity. Qed.

Lemma py_get_nonneg {A} (l : list A) i :
  0 <= i ->
  py_get l i = match nth_error l (Z.to_nat i) with Some x => Ok x | None => Err IndexError end.
Proof.
  intros H. unfold py_get.
  destruct (i <? 0) eqn:E; [apply Z.ltb_lt in E; lia|].
  rewrite E. reflexivity.
Qed.

Lemma py_get_mid {A} (p : list A) x s : py_get (p ++ x :: s) (zlen p) = Ok x.
Proof.
  rewrite py_get_nonneg by apply zlen_nonneg.
  unfold zlen. rewrite Nat2Z.id, nth_error_app2, Nat.sub_diag by lia. reflexivity.
Qed.

Lemma py_get_cons_0 {A} (x : A) s : py_get (x :: s) 0 = Ok x.
Proof. reflexivity. Qed.

Lemma py_get_cons_S {A} (x : A) s i : 0 <= i -> py_get (x :: s) (i + 1) = py_get s i.
Proof.
  intros. rewrite !py_get_nonneg by lia.
  replace (Z.to_nat (i + 1)) with (S (Z.to_nat i)) by lia. reflexivity.
Qed.

Lemma py_get_last {A} (p : list A) x : py_get (p ++ [x]) (-1) = Ok x.
Proof.
  unfold py_get. cbv zeta. change (-1 <? 0) with true. cbv iota.
  assert (-1 + zlen (p ++ [x]) = zlen p) as -> by (unfold zlen; rewrite app_length; simpl length; lia).
  pose proof (zlen_nonneg p).
  destruct (zlen p <? 0) eqn:E; [apply Z.ltb_lt in E; lia|].
  unfold zlen. rewrite Nat2Z.id, nth_error_app2, Nat.sub_diag by lia. reflexivity.
Qed.

Lemma py_get_ok_range {A} (l : list A) i x :
  py_get l i = Ok x -> - zlen l <= i < zlen l.
Proof.
  unfold py_get. intros H. pose proof (zlen_nonneg l).
  destruct (i <? 0) eqn:E.
  - apply Z.ltb_lt in E. destruct (i + zlen l <? 0) eqn:E2; [discriminate|].
    apply Z.ltb_ge in E2. lia.
  - rewrite E in H. apply Z.ltb_ge in E.
    destruct (nth_error l (Z.to_nat i)) eqn:E2; [|discriminate].
    assert (Z.to_nat i < length l)%nat by (apply nth_error_Some; congruence).
    unfold zlen. lia.
Qed.

Lemma py_get_Ok {A} (l : list A) i :
  0 <= i < zlen l -> exists x, py_get l i = Ok x /\ nth_error l (Z.to_nat i) = Some x.
Proof.
  intros H. rewrite py_get_nonneg by lia.
  destruct (nth_error l (Z.to_nat i)) eqn:E; [eauto|].
  apply nth_error_None in E. unfold zlen in H. lia.
Qed.

Lemma py_set_mid {A} (p : list A) x y s : py_set (p ++ x :: s) (zlen p) y = Ok (p ++ y :: s).
Proof.
  unfold py_set. pose proof (zlen_nonneg p). pose proof (zlen_nonneg s).
  destruct (zlen p <? 0) eqn:E; [apply Z.ltb_lt in E; lia|].
  rewrite E. rewrite zlen_app, zlen_cons.
  destruct (zlen p + (zlen s + 1) <=? zlen p) eqn:E2; [apply Z.leb_le in E2; lia|].
  simpl orb. cbv iota. unfold zlen. rewrite Nat2Z.id.
  f_equal. rewrite firstn_app, Nat.sub_diag, firstn_O, app_nil_r, firstn_all.
  f_equal. f_equal.
  replace (S (length p)) with (length (p ++ [x])) by (rewrite app_length; simpl; lia).
  change (x :: s) with ([x] ++ s). rewrite app_assoc.
  rewrite skipn_app, skipn_all, Nat.sub_diag. reflexivity.
Qed.

(** Iterate a step function at most [p] times, [p] in binary; [inl] means
    "go on", [inr] means "finished". *)
Section Run.
  Context {S R : Type} (step : S -> S + R).
  Fixpoint run (p : positive) (s : S) : S + R :=
    match p with
    | xH => step s
    | xO q => match run q s with inl s' => run q s' | inr r => inr r end
    | xI q => match step s with
              | inl s1 => match run q s1 with inl s' => run q s' | inr r => inr r end
              | inr r => inr r
              end
    end.

  Fixpoint run_nat (n : nat) (s : S) : S + R :=
    match n with
    | O => inl s
    | Datatypes.S k => match step s with inl s' => run_nat k s' | inr r => inr r end
    end.

  Lemma run_nat_add a b s :
    run_nat (a + b) s = match run_nat a s with inl s' => run_nat b s' | inr r => inr r end.
  Proof.
    revert s; induction a as [|a IH]; intros s; simpl; [reflexivity|].
    destruct (step s); auto.
  Qed.

  Lemma run_run_nat p s : run p s = run_nat (Pos.to_nat p) s.
  Proof.
    revert s; induction p as [q IH|q IH|]; intros s.
    - rewrite Pos2Nat.inj_xI. simpl run. cbn [run_nat].
      destruct (step s) as [s1|r]; [|reflexivity].
      replace (2 * Pos.to_nat q)%nat with (Pos.to_nat q + Pos.to_nat q)%nat by lia.
      rewrite run_nat_add, <- IH. destruct (run q s1); auto.
    - rewrite Pos2Nat.inj_xO. simpl run.
      replace (2 * Pos.to_nat q)%nat with (Pos.to_nat q + Pos.to_nat q)%nat by lia.
      rewrite run_nat_add, <- IH. destruct (run q s); auto.
    - simpl. destruct (step s); reflexivity.
  Qed.
End Run.
