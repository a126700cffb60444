(** * Property C103: what the value predicates of Normalizer2 say about characters *)
From Coq Require Import ZArith List Bool Lia ZifyBool.
From Verif Require Import Py Arr SpecText Utilities UtilitiesFacts Runs CPTrie CPTrieRuns CharRuns Data_NFC Normalizer2 NormFacts NormShipped.
Import ListNotations.
Open Scope Z_scope.

(** ** C103

    [getNorm16] gives every character a value, and the predicates on values (Normalizer2.py:162-187)
    say what kind of character it is: the jamo and the Hangul syllables by their code points (The
    Unicode Standard, 3.12), the others by whether they decompose. *)
Definition jamoL (c : Z) : Prop := 0x1100 <= c <= 0x1112.
Definition jamoVT (c : Z) : Prop := 0x1161 <= c <= 0x1175 \/ 0x11A8 <= c <= 0x11C2.
Definition syllableLV (c : Z) : Prop := 0xAC00 <= c <= 0xD7A3 /\ (c - 0xAC00) mod 28 = 0.
Definition syllableLVT (c : Z) : Prop := 0xAC00 <= c <= 0xD7A3 /\ (c - 0xAC00) mod 28 <> 0.

Definition outside (a b x y : Z) : bool := (b <=? x) || (y <? a).
Definition inside (a b x y : Z) : bool := (x <=? a) && (b - 1 <=? y).
Definition kinds (a b v : Z) : bool :=
  (if v =? 2 then inside a b 0x1100 0x1112 else outside a b 0x1100 0x1112) &&
  (if v =? 0xFE00 then inside a b 0x1161 0x1175 || inside a b 0x11A8 0x11C2 else outside a b 0x1161 0x1175 && outside a b 0x11A8 0x11C2) &&
  (if v =? 2786 then inside a b 0xAC00 0xD7A3 && (b =? a + 1) && ((a - 0xAC00) mod 28 =? 0)
   else if v =? 4745 then inside a b 0xAC00 0xD7A3 && negb ((a - 0xAC00) mod 28 =? 0) && ((a - 0xAC00) / 28 =? (b - 1 - 0xAC00) / 28)
   else outside a b 0xAC00 0xD7A3) &&
  (if v =? 0 then inside a b 0xD800 0xDBFF else true).
Lemma kinds_checked : forallb (fun r => let '(a, b, v) := r in kinds a b v) nfc_runs = true.
Proof. vm_compute. reflexivity. Qed.
Lemma kinds_ok c : 0 <= c <= 0x10FFFF -> exists v, cpget nfc_trie c = Ok v /\
  (v = 2 <-> jamoL c) /\ (v = 0xFE00 <-> jamoVT c) /\ (v = 2786 <-> syllableLV c) /\ (v = 4745 <-> syllableLVT c).
Proof.
  intros Hc. destruct (Z_lt_le_dec c 0x2fc00) as [L|L].
  2:{ exists 1. split; [apply nfc_high; exact L|]. unfold jamoL, jamoVT, syllableLV, syllableLVT. lia. }
  apply (by_runs _ _ _ (fun c v => (v = 2 <-> jamoL c) /\ (v = 0xFE00 <-> jamoVT c) /\ (v = 2786 <-> syllableLV c) /\ (v = 4745 <-> syllableLVT c)) nfc_runs_ok); [|lia].
  intros a b v Hin x Hx. pose proof kinds_checked as K. rewrite forallb_forall in K. specialize (K _ Hin). cbv beta iota in K.
  unfold kinds, inside, outside in K. unfold jamoL, jamoVT, syllableLV, syllableLVT.
  destruct (v =? 2) eqn:E1; [assert (v = 2) by lia; subst v; lia|]. destruct (v =? 0xFE00) eqn:E2; [assert (v = 0xFE00) by lia; subst v; lia|].
  destruct (v =? 2786) eqn:E3; [assert (v = 2786) by lia; assert (x = a) by lia; subst v x; lia|].
  destruct (v =? 4745) eqn:E4; [|lia]. assert (v = 4745) by lia. subst v. clear Hin.
  assert ((x - 0xAC00) / 28 = (a - 0xAC00) / 28).
  { assert ((a - 0xAC00) / 28 <= (x - 0xAC00) / 28 <= (b - 1 - 0xAC00) / 28) by (split; apply Z.div_le_mono; lia). lia. }
  assert ((x - 0xAC00) mod 28 <> 0).
  { pose proof (Z.div_mod (x - 0xAC00) 28 ltac:(lia)). pose proof (Z.div_mod (a - 0xAC00) 28 ltac:(lia)). pose proof (Z.mod_pos_bound (a - 0xAC00) 28 ltac:(lia)). lia. }
  lia.
Qed.
Theorem C103_kinds : forall c, 0 <= c <= 0x10FFFF -> exists v, getNorm16 nfc c = Ok v /\
  (isJamoL v = true <-> jamoL c) /\ (isJamoVT v = true <-> jamoVT c) /\ (isHangulLV nfc v = true <-> syllableLV c) /\ (isHangulLVT nfc v = true <-> syllableLVT c).
Proof.
  intros c Hc. destruct (kinds_ok c Hc) as (v & G & H). unfold getNorm16. destruct (isLead c) eqn:L.
  - exists INERT. split; [reflexivity|]. apply isLead_spec in L; [|lia]. unfold isJamoL, isJamoVT, isHangulLV, isHangulLVT, jamoL, jamoVT, syllableLV, syllableLVT.
    change INERT with 1. change JAMO_L with 2. change JAMO_VT with 65024. change (minYesNo nfc) with 2786. change (hangulLVT nfc) with 4745. lia.
  - exists v. split; [exact G|]. unfold isJamoL, isJamoVT, isHangulLV, isHangulLVT. change JAMO_L with 2. change JAMO_VT with 65024. change (minYesNo nfc) with 2786. change (hangulLVT nfc) with 4745.
    rewrite !Z.eqb_eq. exact H.
Qed.
Print Assumptions C103_kinds.
(** [isDecompYes] is true of exactly the characters without decomposition; [isInert] only of such
    characters, and of no jamo. *)
Theorem C103_decomposes : forall c v, 0 <= c <= 0x10FFFF -> getNorm16 nfc c = Ok v ->
  (isDecompYes nfc v = true <-> getDecomposition nfc c = Ok None) /\ (isDecompYes nfc v = true <-> getRawDecomposition nfc c = Ok None) /\
  (isMaybeOrNonZeroCC nfc v = true -> isDecompYes nfc v = true /\ isDecompNoAlgorithmic nfc v = true).
Proof.
  intros c v Hc G. assert (D : isDecompYes nfc v = yes v) by reflexivity. rewrite D.
  assert (N : no_decomposition c <-> yes v = true).
  { unfold getNorm16 in G. destruct (isLead c) eqn:L.
    - injection G as <-. split; [intros _; reflexivity|intros _]. destruct (Z_lt_le_dec c 0x2fc00) as [X|X]; [|apply nfc_above; exact X].
      destruct (kinds_ok c Hc) as (w & W & _). apply (nfc_values c w); [lia|exact W|right; exact L].
    - destruct (Z_lt_le_dec c 0x2fc00) as [X|X]; [rewrite (nfc_values c v ltac:(lia) G), L; intuition discriminate|].
      pose proof (nfc_high c X) as E. change (cpget (n_trie nfc) c) with (cpget nfc_trie c) in G. rewrite E in G. injection G as <-. split; [reflexivity|intros _; apply nfc_above; exact X]. }
  split; [|split].
  - rewrite <- N. split; [intros [_ F]; exact F|]. intros F. destruct (nfc_results c Hc) as [[R _]|(r & f & _ & F' & _)]; [split; assumption|congruence].
  - rewrite <- N. split; [intros [R _]; exact R|]. intros R. destruct (nfc_results c Hc) as [[_ F]|(r & f & R' & _)]; [split; assumption|congruence].
  - unfold isMaybeOrNonZeroCC, isDecompNoAlgorithmic, yes. change (minMaybeYes nfc) with 64512. change (limitNoNo nfc) with 15462. lia.
Qed.
Print Assumptions C103_decomposes.
Theorem C103_inert : forall v, isInert v = true <-> v = 1.
Proof. intros v. unfold isInert. change INERT with 1. lia. Qed.
Print Assumptions C103_inert.
Theorem C103_inert_characters : forall c v, 0 <= c <= 0x10FFFF -> getNorm16 nfc c = Ok v -> isInert v = true ->
  getDecomposition nfc c = Ok None /\ getRawDecomposition nfc c = Ok None /\ ~ jamoL c /\ ~ jamoVT c /\ isMaybeOrNonZeroCC nfc v = false.
Proof.
  intros c v Hc G I. apply C103_inert in I. subst v. destruct (C103_decomposes c 1 Hc G) as (D & R & _). destruct (C103_kinds c Hc) as (v & G' & J & VT & _). rewrite G in G'. injection G' as <-.
  split; [apply D; reflexivity|]. split; [apply R; reflexivity|]. split; [rewrite <- J; discriminate|]. split; [rewrite <- VT; discriminate|reflexivity].
Qed.
Print Assumptions C103_inert_characters.
(** Surrogates that lead are inert, whatever the trie has for them; so is everything above U+10FFFF. *)
Theorem C103_always_inert : forall N c, 0xD800 <= c <= 0xDBFF -> getNorm16 N c = Ok 1.
Proof. intros N c H. unfold getNorm16. replace (isLead c) with true; [reflexivity|]. symmetry. apply isLead_spec; lia. Qed.
Print Assumptions C103_always_inert.
Theorem C103_above : forall c, 0x10FFFF < c -> getNorm16 nfc c = Ok 1.
Proof.
  intros c H. unfold getNorm16. destruct (isLead c); [reflexivity|]. apply nfc_high. lia.
Qed.
Print Assumptions C103_above.
(** An inert character can be part of a decomposition (of one that is excluded from composition). *)
Theorem C103_parts_refuted : exists c x y, getRawDecomposition nfc c = Ok (Some [x; y]) /\ getNorm16 nfc x = Ok 1 /\ isInert 1 = true.
Proof. exists 0xFB4E, 0x5E4, 0x5BF. repeat split; vm_compute; reflexivity. Qed.
Print Assumptions C103_parts_refuted.
Example C103_case : map (getNorm16 nfc) [0x41; 0x301; 0x1100; 0x1161; 0x11C2; 0xAC00; 0xAC01; 0xE9; 0x10FFFF] = map Ok [16; 64972; 2; 65024; 65024; 2786; 4745; 4866; 1] /\
  map isInert [1; 0; 16] = [true; false; false] /\ map (isDecompYes nfc) [16; 64972; 4866; 2786] = [true; true; false; false] /\ isMaybeOrNonZeroCC nfc 64972 = true.
Proof. repeat split; vm_compute; reflexivity. Qed.
