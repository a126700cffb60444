(** * The shipped NFC data and the decomposition types of CharProps. *)
From Coq Require Import ZArith List Bool Lia ZifyBool.
From Verif Require Import Py Arr UTrie2 Utilities UtilitiesFacts Runs CPTrie CharRuns CharProps Normalizer2 NormFacts NormShipped.
Import ListNotations.
Open Scope Z_scope.

(** 1 is the canonical type *)
Definition canonical (v : Z) : bool := match decompTypeFromVecIndex icu v with Ok k => k =? 1 | Err _ => false end.
Definition nv_runs : list (Z * Z * (Z * Z)) := Eval vm_compute in merged vec_runs (rev nfc_runs).
Lemma nv_runs_eq : merged vec_runs (rev nfc_runs) = nv_runs.
Proof. vm_cast_no_check (eq_refl nv_runs). Qed.
Lemma nv_tiles : tiles 0 nv_runs 0x2fc00 = true.
Proof. vm_compute. reflexivity. Qed.
(** a value that stands for a decomposition, except for lead surrogates, where it means something else *)
Lemma nv_checked : forallb (fun r => let '(a, b, (v, n)) := r in
  (if (b <=? 0xD800) || (0xDC00 <=? a) then true else negb (canonical v)) &&
  (if (0xD800 <=? a) && (b <=? 0xDC00) then true else Bool.eqb (canonical v) (negb (yes n)))) nv_runs = true.
Proof. vm_compute. reflexivity. Qed.
Lemma high_checked : forallb (fun r => let '(a, b, v) := r in if b <=? 0x2fc00 then true else negb (canonical v)) vec_runs = true.
Proof. vm_compute. reflexivity. Qed.

Lemma vec_low : runs_ok (get (propsVectorTrie icu)) vec_runs 0x2fc00.
Proof.
  destruct vec_runs_ok as [C H]. split.
  - intros x Hx. apply C. lia.
  - intros a b v x Hin Hx Hn. eapply H; eauto. lia.
Qed.
Lemma nfc_rev : runs_ok (cpget nfc_trie) (rev nfc_runs) 0x2fc00.
Proof.
  destruct nfc_runs_ok as [C H]. split.
  - intros x Hx. destruct (C x Hx) as (a & b & v & Hin & R). exists a, b, v. split; [apply -> in_rev; exact Hin|exact R].
  - intros a b v x Hin. apply H. apply in_rev. exact Hin.
Qed.
Lemma canonical_is v : canonical v = true <-> decompTypeFromVecIndex icu v = Ok 1.
Proof. unfold canonical. destruct (decompTypeFromVecIndex icu v) as [k|]; split; intros H; try discriminate; [f_equal; lia|assert (k = 1) by congruence; lia]. Qed.


Theorem canonical_decomposes c : 0 <= c <= 0x10FFFF -> (getDecompType icu c = Ok 1 <-> exists f, getDecomposition nfc c = Ok (Some f)).
Proof.
  intros Hc. unfold getDecompType, of_char.
  assert (NF : no_decomposition c -> ~ exists f, getDecomposition nfc c = Ok (Some f)) by (intros [_ F] [f F']; congruence).
  assert (NN : ~ no_decomposition c -> exists f, getDecomposition nfc c = Ok (Some f)).
  { intros H. destruct (nfc_results c Hc) as [N|(r & f & _ & F & _)]; [contradiction|eauto]. }
  destruct (Z_lt_le_dec c 0x2fc00) as [L|L].
  - destruct (by_merged _ _ _ _ 0x2fc00 (fun c v n => (0xD800 <= c < 0xDC00 -> canonical v = false) /\ (~ 0xD800 <= c < 0xDC00 -> canonical v = negb (yes n))) vec_low nfc_rev) with (c := c)
      as (v & n & Gv & Gn & H); [rewrite nv_runs_eq; exact nv_tiles| |lia|].
    + rewrite nv_runs_eq. intros a b v n Hin x Hx. pose proof nv_checked as K. rewrite forallb_forall in K. specialize (K _ Hin). cbv beta iota in K.
      apply andb_true_iff in K as [K1 K2]. split; intros S.
      * destruct ((b <=? 0xD800) || (0xDC00 <=? a)) eqn:E; [lia|]. destruct (canonical v); [discriminate|reflexivity].
      * destruct ((0xD800 <=? a) && (b <=? 0xDC00)) eqn:E; [lia|]. apply Bool.eqb_prop. exact K2.
    + rewrite Gv. cbn [bind]. rewrite <- canonical_is. pose proof (nfc_values c n ltac:(lia) Gn) as V.
      destruct (isLead c) eqn:LD.
      * assert (no_decomposition c) as N by (apply V; right; reflexivity). pose proof LD as LD'. apply isLead_spec in LD'; [|lia].
        destruct H as [H _]. rewrite (H ltac:(lia)). split; [discriminate|]. intros X. destruct (NF N X).
      * destruct H as [_ H]. rewrite H.
        2:{ intros R. enough (isLead c = true) by congruence. apply isLead_spec; lia. }
        split.
        -- intros Y. apply NN. intros N. apply V in N as [N|N]; [rewrite N in Y; discriminate|discriminate].
        -- intros X. destruct (yes n) eqn:Y; [|reflexivity]. exfalso. apply NF; [|exact X]. apply V. left. reflexivity.
  - split; intros H; [|exfalso; apply NF; [apply nfc_above; exact L|exact H]]. exfalso.
    destruct (Z.eq_dec c 0x10FFFF) as [->|D].
    + rewrite vec_top in H by lia. cbn [bind] in H. apply canonical_is in H. vm_compute in H. discriminate.
    + destruct (by_runs _ _ _ (fun c v => c < 0x2fc00 \/ canonical v = false) vec_runs_ok) with (c := c) as (v & G & [Q|Q]); [|lia|lia|].
      * intros a b v Hin x Hx. pose proof high_checked as K. rewrite forallb_forall in K. specialize (K _ Hin). cbv beta iota in K.
        destruct (b <=? 0x2fc00) eqn:E; [left; lia|right]. destruct (canonical v); [discriminate|reflexivity].
      * rewrite G in H. cbn [bind] in H. apply canonical_is in H. congruence.
Qed.
