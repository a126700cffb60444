(** * Every decomposition of the shipped NFC data is in one list *)
From Coq Require Import ZArith List Bool Lia ZifyBool.
From Verif Require Import Py Arr SpecText Utilities Runs CPTrie CharRuns Normalizer2 NormFacts NormShipped.
Import ListNotations.
Open Scope Z_scope.

Definition decomposing : list Z := Eval vm_compute in map (fun '(c, _, _) => c) nfc_table.
Definition syllables : list Z := zrange 0xAC00 0xD7A4.
Lemma decomposing_checked : check_runs settled (fun c _ => isLead c || existsb (Z.eqb c) decomposing) nfc_runs = true.
Proof. vm_cast_no_check (eq_refl true). Qed.
Lemma decomposing_all c f : 0 <= c <= 0x10FFFF -> getDecomposition nfc c = Ok (Some f) -> In c (syllables ++ decomposing).
Proof.
  intros Hc F. apply in_or_app. destruct (Z_lt_le_dec c 0x2fc00) as [L|L].
  2:{ destruct (norm16_none c 1 (nfc_high c L) ltac:(lia)) as [_ N]. congruence. }
  destruct (by_runs _ _ _ (fun c v => (v < 2786 \/ 64512 <= v) \/ is_syllable c = true \/ isLead c || existsb (Z.eqb c) decomposing = true)
    nfc_runs_ok) with (c := c) as (v & G & [H|[H|H]]); [|lia| | |].
  - apply (check_runs_ok settled _ nfc_runs _ decomposing_checked); [|intros; right; right; assumption].
    intros a b v x S Hx. unfold settled in S. destruct ((v <? 2786) || (64512 <=? v)) eqn:E; [left; lia|].
    right. left. unfold is_syllable, lv in *. destruct (v =? 2786) eqn:E2; [lia|]. destruct (v =? 4745) eqn:E3; [|discriminate]. lia.
  - destruct (norm16_none c v G H) as [_ N]. congruence.
  - left. apply zrange_spec. unfold is_syllable in H. lia.
  - apply orb_true_iff in H as [H|H].
    + assert (N : no_decomposition c) by (apply (nfc_values c v); [lia|exact G|right; exact H]). destruct N as [_ N]. congruence.
    + right. apply existsb_exists in H as (x & Hin & E). assert (c = x) by lia. subst x. exact Hin.
Qed.

(** a statement about a character and its decomposition that holds of all that the list has *)
Definition check_decomposition (P : Z -> list Z -> bool) (c : Z) : bool := match getDecomposition nfc c with Ok (Some f) => P c f | _ => true end.
Lemma check_decompositions P : forallb (check_decomposition P) (syllables ++ decomposing) = true ->
  forall c f, 0 <= c <= 0x10FFFF -> getDecomposition nfc c = Ok (Some f) -> P c f = true.
Proof.
  intros H c f Hc F. rewrite forallb_forall in H. specialize (H c (decomposing_all c f Hc F)). unfold check_decomposition in H. rewrite F in H. exact H.
Qed.
