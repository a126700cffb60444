(** * Asking the library about two characters *)
From Coq Require Import ZArith List Bool Lia ZifyBool.
From Verif Require Import Py Arr UTrie2 CharProps CharRuns.
Import ListNotations.
Open Scope Z_scope.

Definition gives {A} (r : res A) (p : A -> bool) : bool := match r with Ok v => p v | Err _ => false end.
Lemma gives_ok {A} (r : res A) p : gives r p = true -> exists v, r = Ok v /\ p v = true.
Proof. destruct r as [v|]; cbn [gives]; intros H; [eauto|discriminate]. Qed.
(** the same answer, to a question about two characters *)
Definition sameb {A} (eqb : A -> A -> bool) (r s : res A) : bool := gives r (fun v => gives s (eqb v)).
Definition agree {A} (ask : Z -> res A) (c d : Z) : Prop := exists v, ask c = Ok v /\ ask d = Ok v.
Lemma same_ok {A} (eqb : A -> A -> bool) (ask : Z -> res A) c d : (forall x y, eqb x y = true -> x = y) -> sameb eqb (ask c) (ask d) = true -> agree ask c d.
Proof.
  intros E H. apply gives_ok in H as (v & Hv & H). apply gives_ok in H as (w & Hw & H). apply E in H. subst w. exists v. split; assumption.
Qed.
Lemma zeq x y : Z.eqb x y = true -> x = y. Proof. lia. Qed.
Lemma beq x y : Bool.eqb x y = true -> x = y. Proof. apply Bool.eqb_prop. Qed.

(** the binary property in column [k] of the second vector word *)
Definition asks (k : Z) (c : Z) : res bool := getBinaryProp icu c k 1.
Definition yesb (r : res bool) : bool := gives r (fun v => v).
Lemma yesb_iff r : yesb r = true <-> r = Ok true.
Proof. unfold yesb, gives. destruct r as [[]|]; split; intros H; congruence || discriminate. Qed.
