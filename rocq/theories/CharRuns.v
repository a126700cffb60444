(** * The ranges of the shipped CharProps tables. *)
From Coq Require Import ZArith List Bool Lia.
From Verif Require Import Py Arr UTrie2 Runs UTrie2Runs CharProps.
Import ListNotations.
Open Scope Z_scope.

Definition of_res {A} (r : res (list A)) : list A := match r with Ok l => l | Err _ => [] end.

Definition props_runs : list (Z * Z * Z) := Eval vm_compute in of_res (trie_runs (propsTrie icu)).
Lemma props_runs_eq : trie_runs (propsTrie icu) = Ok props_runs.
Proof. vm_cast_no_check (eq_refl (Ok props_runs)). Qed.
Lemma props_runs_ok : runs_ok (get (propsTrie icu)) props_runs 0x10FFFF.
Proof. apply trie_runs_correct; [exact props_runs_eq|split; discriminate|reflexivity]. Qed.

Definition vec_runs : list (Z * Z * Z) := Eval vm_compute in of_res (trie_runs (propsVectorTrie icu)).
Lemma vec_runs_eq : trie_runs (propsVectorTrie icu) = Ok vec_runs.
Proof. vm_cast_no_check (eq_refl (Ok vec_runs)). Qed.
Lemma vec_runs_ok : runs_ok (get (propsVectorTrie icu)) vec_runs 0x10FFFF.
Proof. apply trie_runs_correct; [exact vec_runs_eq|split; discriminate|reflexivity]. Qed.

(** U+10FFFF and everything above it *)
Lemma props_top c : 0x10FFFF <= c -> get (propsTrie icu) c = Ok 0.
Proof.
  intros H. unfold get, indexFromCodePoint.
  replace (c <? 0xD800) with false by (symmetry; apply Z.ltb_ge; lia).
  replace (c <=? 0xFFFF) with false by (symmetry; apply Z.leb_gt; lia).
  replace (c >=? 0x10FFFF) with true by (symmetry; apply Z.geb_le; lia). vm_compute. reflexivity.
Qed.
Lemma vec_top c : 0x10FFFF <= c -> get (propsVectorTrie icu) c = Ok 0.
Proof.
  intros H. unfold get, indexFromCodePoint.
  replace (c <? 0xD800) with false by (symmetry; apply Z.ltb_ge; lia).
  replace (c <=? 0xFFFF) with false by (symmetry; apply Z.leb_gt; lia).
  replace (c >=? 0x10FFFF) with true by (symmetry; apply Z.geb_le; lia). vm_compute. reflexivity.
Qed.

(** both tables together *)
Definition char_runs : list (Z * Z * (Z * Z)) := Eval vm_compute in merged props_runs vec_runs.
Lemma char_runs_eq : merged props_runs vec_runs = char_runs.
Proof. vm_cast_no_check (eq_refl char_runs). Qed.
Lemma char_runs_tile : tiles 0 char_runs 0x10FFFF = true.
Proof. vm_compute. reflexivity. Qed.

(** from ranges to code points *)
Lemma char_all (P : Z -> Z -> Z -> Prop) :
  (forall a b p v, In (a, b, (p, v)) char_runs -> forall c, a <= c < b -> P c p v) -> P 0x10FFFF 0 0 ->
  forall c, 0 <= c <= 0x10FFFF -> exists p v, get (propsTrie icu) c = Ok p /\ get (propsVectorTrie icu) c = Ok v /\ P c p v.
Proof.
  intros H T c Hc. destruct (Z.eq_dec c 0x10FFFF) as [->|N].
  - exists 0, 0. split; [apply props_top; lia|]. split; [apply vec_top; lia|exact T].
  - apply (by_merged _ _ _ _ 0x10FFFF P props_runs_ok vec_runs_ok); [|rewrite char_runs_eq; exact H|lia].
    rewrite char_runs_eq. exact char_runs_tile.
Qed.

(** the check done by computation: [whole] settles a range, [each] one code point *)
Definition check_chars (whole : Z -> Z -> Z -> Z -> bool) (each : Z -> Z -> Z -> bool) : bool :=
  forallb (fun r => let '(a, b, (p, v)) := r in if whole a b p v then true else forallb (fun c => each c p v) (zrange a b)) char_runs.
Lemma check_chars_ok whole each (P : Z -> Z -> Z -> Prop) : check_chars whole each = true ->
  (forall a b p v c, whole a b p v = true -> a <= c < b -> P c p v) -> (forall c p v, each c p v = true -> P c p v) ->
  forall a b p v, In (a, b, (p, v)) char_runs -> forall c, a <= c < b -> P c p v.
Proof.
  intros H HW HE a b p v Hin c Hc. unfold check_chars in H. rewrite forallb_forall in H. specialize (H _ Hin). cbv beta iota in H.
  destruct (whole a b p v) eqn:W; [eapply HW; eauto|]. rewrite forallb_forall in H. apply HE, H, zrange_spec. exact Hc.
Qed.
(** a property of the table values only *)
Lemma char_values (Q : Z -> Z -> bool) : forallb (fun r => let '(a, b, (p, v)) := r in Q p v) char_runs && Q 0 0 = true ->
  forall c, 0 <= c <= 0x10FFFF -> exists p v, get (propsTrie icu) c = Ok p /\ get (propsVectorTrie icu) c = Ok v /\ Q p v = true.
Proof.
  intros H. apply andb_true_iff in H as [H H0]. apply (char_all (fun c p v => Q p v = true)); [|exact H0].
  intros a b p v Hin c Hc. rewrite forallb_forall in H. exact (H _ Hin).
Qed.
