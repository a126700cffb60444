(** * The characters Python's string functions know, against the shipped tables *)
From Coq Require Import ZArith List Bool Lia ZifyBool.
From Verif Require Import Py Arr UTrie2 Runs CharProps CharRuns BidiProps BidiShipped CaseProps CaseShipped PyText.
Import ListNotations.
Open Scope Z_scope.

(** Zs is category 12; classes 7, 8 and 9 are B, S and WS *)
Definition spaceWord (p v : Z) : bool :=
  let gc := Z.land p 31 in let cl := Z.land v 31 in (gc =? 12) || (cl =? 7) || (cl =? 8) || (cl =? 9).
Definition whites : list Z := Eval vm_compute in filter uSpace (map Z.of_nat (seq 0 (Z.to_nat 12289))).
Lemma white_in c : uSpace c = true -> In c whites.
Proof. intros H. unfold uSpace in H. vm_compute. lia. Qed.
Definition all_white (a b : Z) : bool := forallb (fun k => uSpace (a + Z.of_nat k)) (seq 0 (Z.to_nat (b - a))).
Lemma space_checked : forallb (fun r => let '(a, b, (p, v)) := r in if spaceWord p v then all_white a b else none_in whites a b) pb_runs = true.
Proof. vm_cast_no_check (eq_refl true). Qed.
Lemma space_words c : 0 <= c <= 0x10FFFF -> exists p v, get (propsTrie icu) c = Ok p /\ get (bidiPropsTrie icu_bidi) c = Ok v /\ spaceWord p v = uSpace c.
Proof.
  intros Hc. destruct (Z.eq_dec c 0x10FFFF) as [->|N].
  - exists 0, 0. split; [apply props_top; lia|]. split; [apply bidi_top; lia|reflexivity].
  - apply (by_merged _ _ _ _ 0x10FFFF (fun c p v => spaceWord p v = uSpace c) props_runs_ok bidi_runs_ok); [|rewrite pb_runs_eq|lia].
    + rewrite pb_runs_eq. exact pb_runs_tile.
    + intros a b p v Hin x Hx. pose proof space_checked as F. rewrite forallb_forall in F. specialize (F _ Hin). cbv beta iota in F.
      destruct (spaceWord p v).
      * unfold all_white in F. rewrite forallb_forall in F. specialize (F (Z.to_nat (x - a))). rewrite Z2Nat.id in F by lia.
        replace (a + (x - a)) with x in F by lia. symmetry. apply F. apply in_seq. lia.
      * destruct (uSpace x) eqn:E; [|reflexivity]. elim (none_in_ok _ _ _ _ F Hx). apply white_in. exact E.
Qed.
Theorem space_shipped c : 0 <= c <= 0x10FFFF ->
  (uSpace c = true <-> getGeneralCategory icu c = Ok 12 \/ exists d, getCharDirection icu_bidi c = Ok d /\ In d [7; 8; 9]).
Proof.
  intros Hc. destruct (space_words c Hc) as (p & v & Gp & Gv & H). unfold getGeneralCategory, getCharDirection. rewrite Gp, Gv. cbn [bind].
  rewrite <- H. unfold spaceWord, generalCategoryFromProps, getClassFromProps, UBIDI_CLASS_MASK. cbv zeta. rewrite !orb_true_iff, !Z.eqb_eq. split.
  - intros [[[->|E]|E]|E]; [left; reflexivity|right; exists 7|right; exists 8|right; exists 9]; rewrite E; (split; [reflexivity|cbn; auto]).
  - intros [[= ->]|(d & [= <-] & [E|[E|[E|[]]]])]; auto.
Qed.

(** ** ASCII letters, digits and case *)
Lemma ascii_checked : forallb (fun k => let c := Z.of_nat k in
    match isalnum icu c, toUpper icu_case c, toLower icu_case c with
    | Ok b, Ok u, Ok l => Bool.eqb (wordChar c) (b || (c =? 95)) && (upperChar c =? u) && (lowerChar c =? l)
    | _, _, _ => false
    end) (seq 0 128) = true.
Proof. vm_compute. reflexivity. Qed.
Theorem ascii_text c : 0 <= c < 128 ->
  (exists b, isalnum icu c = Ok b /\ wordChar c = b || (c =? 95)) /\ toUpper icu_case c = Ok (upperChar c) /\ toLower icu_case c = Ok (lowerChar c).
Proof.
  intros Hc. pose proof ascii_checked as F. rewrite forallb_forall in F. specialize (F (Z.to_nat c)). rewrite Z2Nat.id in F by lia.
  specialize (F ltac:(apply in_seq; lia)). cbv zeta in F.
  destruct (isalnum icu c) as [b|]; [|discriminate]. destruct (toUpper icu_case c) as [u|]; [|discriminate]. destruct (toLower icu_case c) as [l|]; [|discriminate].
  apply andb_true_iff in F as [F F3]. apply andb_true_iff in F as [F1 F2]. apply eqb_prop in F1. apply Z.eqb_eq in F2, F3. subst u l. split; [|auto]. exists b. auto.
Qed.
