(** * Enumerating with values of another type. *)
From Coq Require Import ZArith List Bool Lia.
From Verif Require Import Py Arr UTrie2 UTrie2Enum EnumShipped.
Import ListNotations.
Open Scope Z_scope.

Section N.
  Context {V W : Type} (f : V -> W) (veq : V -> V -> bool) (weq : W -> W -> bool) (vf : Z -> V) (wf : Z -> W).
  Hypothesis feq : forall a b, weq (f a) (f b) = veq a b.
  Hypothesis fvf : forall z, wf z = f (vf z).
  Variables (t : utrie2) (limit : Z).

  Definition onRange (r : Z * Z * V) : Z * Z * W := let '(a, b, v) := r in (a, b, f v).
  Definition onState (s : est (V := V)) : est (V := W) :=
    mkEst (e_c s) (e_prev s) (f (e_value s)) (e_block s) (e_i2block s) (map onRange (e_out s)).
  Definition onRes {A B} (g : A -> B) (r : res A) : res B := match r with Ok x => Ok (g x) | Err e => Err e end.

  Lemma on_out s : out_before (onState s) = map onRange (out_before s).
  Proof. unfold out_before, onState. cbn [e_prev e_c]. destruct (_ <? _); reflexivity. Qed.
  Lemma on_note s v : note weq (onState s) (f v) = onState (note veq s v).
  Proof.
    unfold note. cbn [onState e_value]. rewrite feq. destruct (veq _ _); [reflexivity|].
    rewrite on_out. reflexivity.
  Qed.
  Lemma on_advance s n : advance (onState s) n = onState (advance s n).
  Proof. reflexivity. Qed.
  Lemma on_block s n : set_block (onState s) n = onState (set_block s n).
  Proof. reflexivity. Qed.
  Lemma on_i2 s n : set_i2block (onState s) n = onState (set_i2block s n).
  Proof. reflexivity. Qed.

  Lemma on_jloop b js : forall s, jloop weq wf t b js (onState s) = onRes onState (jloop veq vf t b js s).
  Proof.
    induction js as [|j js IH]; intros s; cbn [jloop]; [reflexivity|].
    destruct (aget (index t) (b + j)) as [x|e]; [|reflexivity]. cbn [bind].
    rewrite fvf, on_note, on_advance. apply IH.
  Qed.
  Lemma on_i2body b tl i s : i2body weq wf t b tl i (onState s) = onRes onState (i2body veq vf t b tl i s).
  Proof.
    unfold i2body. destruct (aget (index t) (b + i)) as [x|e]; [|reflexivity]. cbn [bind].
    cbn [onState e_block e_c e_prev]. fold (onState s).
    destruct (_ && _); [reflexivity|]. destruct (_ =? _).
    - unfold initV. rewrite fvf, on_block, on_note, on_advance. reflexivity.
    - rewrite on_block. cbn [onState e_c]. fold (onState (set_block s (Z.shiftl x INDEX_SHIFT))). apply on_jloop.
  Qed.
  Lemma on_i2loop b tl is : forall s, i2loop weq wf t b tl is (onState s) = onRes onState (i2loop veq vf t b tl is s).
  Proof.
    induction is as [|i is IH]; intros s; cbn [i2loop]; [reflexivity|].
    rewrite on_i2body. destruct (i2body veq vf t b tl i s) as [s'|e]; cbn [bind onRes]; [apply IH|reflexivity].
  Qed.
  Lemma on_outer s : outer_body weq wf t limit (onState s) = onRes onState (outer_body veq vf t limit s).
  Proof.
    unfold outer_body. cbn [onState e_c e_i2block e_prev]. fold (onState s).
    destruct (choose t limit (e_c s)) as [[b tl]|e]; [|reflexivity]. cbn [bind].
    destruct (_ && _); [reflexivity|]. destruct (_ =? _).
    - rewrite on_i2. unfold initV. rewrite fvf. cbn [onState e_value]. rewrite feq. fold (onState (set_i2block s b)).
      destruct (veq _ _); [reflexivity|]. rewrite on_note. reflexivity.
    - destruct (i2bounds (e_c s) b tl) as [i0 i1]. rewrite on_i2. apply on_i2loop.
  Qed.
  Lemma on_step s : outer_step weq wf t limit (onState s) =
    match outer_step veq vf t limit s with inl s' => inl (onState s') | inr r => inr (onRes onState r) end.
  Proof.
    unfold outer_step. cbn [onState e_c]. fold (onState s). destruct (_ && _); [|reflexivity].
    rewrite on_outer. destruct (outer_body veq vf t limit s); reflexivity.
  Qed.
  Lemma on_run n : forall s, run_nat (outer_step weq wf t limit) n (onState s) =
    match run_nat (outer_step veq vf t limit) n s with inl s' => inl (onState s') | inr r => inr (onRes onState r) end.
  Proof.
    induction n as [|n IH]; intros s; cbn [run_nat]; [reflexivity|]. rewrite on_step.
    destruct (outer_step veq vf t limit s) as [s'|r]; [apply IH|reflexivity].
  Qed.
  Lemma on_finish s : finish weq wf t limit (onState s) = onRes (map onRange) (finish veq vf t limit s).
  Proof.
    unfold finish. cbn [onState e_c]. destruct (e_c s >? limit).
    - cbn [bind onRes]. rewrite map_rev. f_equal. f_equal. apply (on_out (mkEst limit (e_prev s) (e_value s) (e_block s) (e_i2block s) (e_out s))).
    - destruct (e_c s <? limit).
      + destruct (aget (index t) (highValueIndex t)) as [x|e]; [|reflexivity]. cbn [bind onRes].
        fold (onState s). rewrite fvf, on_note, map_rev. f_equal. f_equal.
        set (n := note veq s (vf x)). apply (on_out (mkEst limit (e_prev n) (e_value n) (e_block n) (e_i2block n) (e_out n))).
      + cbn [bind onRes]. fold (onState s). rewrite on_out, map_rev. reflexivity.
  Qed.

  Theorem enumerator_natural start :
    enumerator weq wf t limit start = onRes (map onRange) (enumerator veq vf t limit start).
  Proof.
    unfold enumerator. rewrite !run_run_nat.
    change (mkEst start start (wf 0) (-1) (-1) []) with (mkEst (V := W) start start (wf 0) (-1) (-1) (map onRange [])).
    rewrite fvf. change (mkEst start start (f (vf 0)) (-1) (-1) (map onRange [])) with (onState (mkEst start start (vf 0) (-1) (-1) [])).
    rewrite on_run. destruct (run_nat _ _ _) as [s|[s|e]]; [reflexivity|apply on_finish|reflexivity].
  Qed.
End N.

Lemma raise_first_ok rs : raise_first (map (onRange (@Ok Z)) rs) = Ok rs.
Proof. induction rs as [|[[a b] v] rs IH]; [reflexivity|]. cbn [map onRange raise_first]. rewrite IH. reflexivity. Qed.

Theorem enumeratorR_ok vf f t limit start : (forall z, vf z = Ok (f z)) ->
  enumeratorR vf t limit start = enumerator Z.eqb f t limit start.
Proof.
  intros H. unfold enumeratorR. rewrite !H. cbn [bind].
  rewrite (enumerator_natural (@Ok Z) Z.eqb res_eqb f vf (fun _ _ => eq_refl) H).
  destruct (enumerator Z.eqb f t limit start) as [rs|e]; [apply raise_first_ok|reflexivity].
Qed.
