(** * Property C89: enumerating the shipped tables *)
From Coq Require Import ZArith List Bool Lia.
From Verif Require Import Py Arr UTrie2 UTrie2Enum Runs CharProps CharRuns BidiProps BidiShipped CaseProps CaseShipped EnumShipped EnumNatural
  CPTrie CPTrieEnum Normalizer2.
Import ListNotations.
Open Scope Z_scope.

(** ** C89

    The full statement: the ranges that the enumerator of a shipped trie yields with its
    default arguments tell the value of every code point.  It is false.  What holds is a
    partition of all code points whose values are right exactly outside the lists
    [category_wrong], [props_wrong], [bidi_wrong] and [case_wrong] of EnumShipped.v. *)
Theorem C89_category_partial : exists en,
  enumerator Z.eqb generalCategoryFromProps (propsTrie icu) 0x110000 0 = Ok en /\
  partition 0 en 0x110000 /\
  forall c, 0 <= c <= 0x10FFFF -> exists a b v, In (a, b, v) en /\ a <= c < b /\
    (getGeneralCategory icu c = Ok v <-> ~ listed category_wrong c).
Proof. exact category_enumeration. Qed.
Print Assumptions C89_category_partial.

Theorem C89_tries_partial :
  (exists en, enumerator Z.eqb (fun v => v) (propsTrie icu) 0x110000 0 = Ok en /\ partition 0 en 0x110000 /\
     exact_values (fun v => v) (propsTrie icu) en props_wrong) /\
  (exists en, enumerator Z.eqb (fun v => v) (bidiPropsTrie icu_bidi) 0x110000 0 = Ok en /\ partition 0 en 0x110000 /\
     exact_values (fun v => v) (bidiPropsTrie icu_bidi) en bidi_wrong) /\
  (exists en, enumerator Z.eqb (fun v => v) (casePropsTrie icu_case) 0x110000 0 = Ok en /\ partition 0 en 0x110000 /\
     exact_values (fun v => v) (casePropsTrie icu_case) en case_wrong).
Proof.
  split; [|split].
  - exact (shipped_enumeration _ _ _ _ _ props_en_eq props_runs_ok (props_top _ (Z.le_refl _)) props_compared).
  - exact (shipped_enumeration _ _ _ _ _ bidi_en_eq bidi_runs_ok (bidi_top _ (Z.le_refl _)) bidi_compared).
  - exact (shipped_enumeration _ _ _ _ _ case_en_eq case_runs_ok (case_top _ (Z.le_refl _)) case_compared).
Qed.
Print Assumptions C89_tries_partial.

(** U+1000 MYANMAR LETTER KA is a letter (Lo), and enumerated as unassigned (Cn). *)
Theorem C89_category_refuted : exists en a b c v w,
  enumerator Z.eqb generalCategoryFromProps (propsTrie icu) 0x110000 0 = Ok en /\
  In (a, b, v) en /\ a <= c < b /\ 0 <= c <= 0x10FFFF /\ getGeneralCategory icu c = Ok w /\ v <> w.
Proof.
  exists category_en, 4059, 4128, 4096, 0, 5. split; [exact category_en_eq|].
  split; [|split; [lia|split; [lia|split; [vm_compute; reflexivity|discriminate]]]].
  assert (H : existsb (fun p => let '(a, b, v) := p in (a =? 4059) && (b =? 4128) && (v =? 0)) category_en = true)
    by (vm_cast_no_check (eq_refl true)).
  apply existsb_exists in H as ([[a b] v] & Hin & H). apply andb_true_iff in H as [H H3]. apply andb_true_iff in H as [H1 H2].
  apply Z.eqb_eq in H1, H2, H3. subst. exact Hin.
Qed.
Print Assumptions C89_category_refuted.

(** The properties kept in vectors cannot be enumerated at all: a reference to a wrong
    block makes the value function read past the end of the vectors. *)
Theorem C89_vectors_refuted :
  enumeratorR (scriptFromVecIndex icu) (propsVectorTrie icu) 0x110000 0 = Err IndexError /\
  enumeratorR (blockFromVecIndex icu) (propsVectorTrie icu) 0x110000 0 = Err IndexError /\
  enumeratorR (eastAsianWidthFromVecIndex icu) (propsVectorTrie icu) 0x110000 0 = Err IndexError.
Proof. exact (conj (raises_ok _ script_raises) (conj (raises_ok _ block_raises) (raises_ok _ width_raises))). Qed.
Print Assumptions C89_vectors_refuted.

(** For every trie and every value function: with a function that never raises, the
    ranges are those of the same function without errors (C25 and C28 apply to them),
    and a function that raises for the initial value, or else for 0, makes the first
    request for a range raise the same error. *)
Theorem C89_value_functions : forall vf t limit start,
  (forall f, (forall z, vf z = Ok (f z)) -> enumeratorR vf t limit start = enumerator Z.eqb f t limit start) /\
  (forall e, vf (initialValue t) = Err e -> enumeratorR vf t limit start = Err e) /\
  (forall x e, vf (initialValue t) = Ok x -> vf 0 = Err e -> enumeratorR vf t limit start = Err e).
Proof.
  intros vf t limit start. split; [intros f; apply enumeratorR_ok|]. unfold enumeratorR.
  split; [intros e ->; reflexivity|intros x e -> ->; reflexivity].
Qed.
Print Assumptions C89_value_functions.
Example C89_value_functions_case :
  enumeratorR (fun v => if v =? initialValue (propsTrie icu) then Err KeyError else Err IndexError) (propsTrie icu) 0x110000 0 = Err KeyError.
Proof. apply C89_value_functions. rewrite Z.eqb_refl. reflexivity. Qed.

(** The trie of the normalisation data is of the fast type: its enumeration does not end. *)
Theorem C89_nfc_refuted : forall fuel rs, cpenum nfc_trie fuel 0 0x110000 <> Ok rs.
Proof. intros fuel rs. apply cpenum_fast_never; [reflexivity|reflexivity|lia]. Qed.
Print Assumptions C89_nfc_refuted.

Example C89_case : listed category_wrong 0x1000 /\ ~ listed category_wrong 0x41 /\
  In (0x41, 0x5B, 1) category_en /\ length category_en = 3889%nat.
Proof.
  split; [exists 0x1000, 0x1020; split; [left; reflexivity|lia]|].
  split; [intros (a & b & Hin & Hr); repeat (destruct Hin as [[= <- <-]|Hin]; [lia|]); destruct Hin|].
  split; [|vm_compute; reflexivity].
  assert (H : existsb (fun p => let '(a, b, v) := p in (a =? 0x41) && (b =? 0x5B) && (v =? 1)) category_en = true)
    by (vm_cast_no_check (eq_refl true)).
  apply existsb_exists in H as ([[a b] v] & Hin & H). apply andb_true_iff in H as [H H3]. apply andb_true_iff in H as [H1 H2].
  apply Z.eqb_eq in H1, H2, H3. subst. exact Hin.
Qed.
