(** * All shipped tables together: what is known of every character, range by range *)
From Coq Require Import ZArith List Bool Lia ZifyBool.
From Verif Require Import Py Arr UTrie2 Runs UTrie2Runs CharProps CharRuns CaseProps CaseShipped BidiProps BidiShipped SpecChar.
Import ListNotations.
Open Scope Z_scope.

(** ** Ranges of several tables *)
Definition sound {A} (P : Z -> A -> Prop) (rs : list (Z * Z * A)) (n : Z) : Prop :=
  forall a b v x, In (a, b, v) rs -> a <= x < b -> 0 <= x < n -> P x v.
Fixpoint mergeAll {A B} (fuel : nat) (p : Z) (l1 : list (Z * Z * A)) (l2 : list (Z * Z * B)) : list (Z * Z * (A * B)) :=
  match fuel, l1, l2 with
  | S m, (a1, b1, v1) :: r1, (a2, b2, v2) :: r2 =>
      if (a1 <=? p) && (a2 <=? p) then
        let e := Z.min b1 b2 in
        (p, e, (v1, v2)) :: mergeAll m e (if b1 <=? e then r1 else l1) (if b2 <=? e then r2 else l2)
      else []
  | _, _, _ => []
  end.
Lemma mergeAll_in {A B} fuel : forall p l1 l2 rs1 rs2 a b (v1 : A) (v2 : B), incl l1 rs1 -> incl l2 rs2 -> In (a, b, (v1, v2)) (mergeAll fuel p l1 l2) ->
  (exists a1 b1, In (a1, b1, v1) rs1 /\ a1 <= a /\ b <= b1) /\ (exists a2 b2, In (a2, b2, v2) rs2 /\ a2 <= a /\ b <= b2).
Proof.
  induction fuel as [|m IH]; intros p l1 l2 rs1 rs2 a b v1 v2 I1 I2 H; [destruct H|].
  destruct l1 as [|[[a1 b1] w1] r1]; [destruct H|]. destruct l2 as [|[[a2 b2] w2] r2]; [destruct H|]. cbn [mergeAll] in H.
  destruct ((a1 <=? p) && (a2 <=? p)) eqn:E; [|destruct H]. destruct H as [H|H].
  - assert (p = a /\ Z.min b1 b2 = b /\ w1 = v1 /\ w2 = v2) as (<- & <- & <- & <-) by (repeat split; congruence). split.
    + exists a1, b1. split; [apply I1; left; reflexivity|lia].
    + exists a2, b2. split; [apply I2; left; reflexivity|lia].
  - eapply IH in H; [exact H| |].
    + destruct (b1 <=? Z.min b1 b2); [|exact I1]. intros x Hx. apply I1. right. exact Hx.
    + destruct (b2 <=? Z.min b1 b2); [|exact I2]. intros x Hx. apply I2. right. exact Hx.
Qed.
Lemma mergeAll_sound {A B} (P : Z -> A -> Prop) (Q : Z -> B -> Prop) fuel p rs1 rs2 n : sound P rs1 n -> sound Q rs2 n ->
  sound (fun x v => P x (fst v) /\ Q x (snd v)) (mergeAll fuel p rs1 rs2) n.
Proof.
  intros HP HQ a b [v1 v2] x H Hx Hn. destruct (mergeAll_in fuel p rs1 rs2 rs1 rs2 a b v1 v2 (incl_refl _) (incl_refl _) H) as [(a1 & b1 & I1 & L1) (a2 & b2 & I2 & L2)].
  split; [eapply HP|eapply HQ]; eauto; lia.
Qed.

Definition both {A B} (l1 : list (Z * Z * A)) (l2 : list (Z * Z * B)) := mergeAll (length l1 + length l2) 0 l1 l2.

(** the values of the four tries: properties, vector index, case, bidi *)
Definition words := (Z * Z * Z * Z)%type.
Definition master_runs : list (Z * Z * words) := Eval vm_compute in both (both char_runs case_runs) bidi_runs.
Lemma master_eq : both (both char_runs case_runs) bidi_runs = master_runs.
Proof. vm_cast_no_check (eq_refl master_runs). Qed.
Lemma master_tile : tiles 0 master_runs 0x10FFFF = true.
Proof. vm_compute. reflexivity. Qed.
Definition looked_up (c : Z) (w : words) : Prop := let '(p, v, t, b) := w in
  get (propsTrie icu) c = Ok p /\ get (propsVectorTrie icu) c = Ok v /\ get (casePropsTrie icu_case) c = Ok t /\ get (bidiPropsTrie icu_bidi) c = Ok b.
Lemma merged_sound g1 g2 rs1 rs2 n : runs_ok g1 rs1 n -> runs_ok g2 rs2 n -> sound (fun c w => g1 c = Ok (fst w) /\ g2 c = Ok (snd w)) (merged rs1 rs2) n.
Proof.
  intros [_ H1] [_ H2] a b [p v] x H Hx Hn.
  destruct (merge_sound _ _ _ _ rs1 rs2 _ _ _ _ (incl_refl _) (incl_refl _) H) as [(a1 & b1 & I1 & L1) (a2 & b2 & I2 & L2)].
  split; [eapply H1|eapply H2]; eauto; lia.
Qed.
Lemma both_sound {A B} (P : Z -> A -> Prop) (Q : Z -> B -> Prop) rs1 rs2 n : sound P rs1 n -> sound Q rs2 n ->
  sound (fun x v => P x (fst v) /\ Q x (snd v)) (both rs1 rs2) n.
Proof. apply mergeAll_sound. Qed.
Lemma four_sound g1 g2 g3 g4 cs rs3 rs4 n (four : list (Z * Z * words)) : sound (fun c w => g1 c = Ok (fst w) /\ g2 c = Ok (snd w)) cs n ->
  runs_ok g3 rs3 n -> runs_ok g4 rs4 n -> both (both cs rs3) rs4 = four ->
  sound (fun c w => let '(p, v, t, b) := w in g1 c = Ok p /\ g2 c = Ok v /\ g3 c = Ok t /\ g4 c = Ok b) four n.
Proof.
  intros H12 [_ H3] [_ H4] <-. assert (S := both_sound _ _ _ _ n (both_sound _ _ _ _ n H12 H3) H4).
  intros a b [[[p v] t] w] x H Hx Hn. destruct (S _ _ _ _ H Hx Hn) as [[[G1 G2] G3] G4]. repeat split; assumption.
Qed.
Lemma char_sound : sound (fun c w => get (propsTrie icu) c = Ok (fst w) /\ get (propsVectorTrie icu) c = Ok (snd w)) char_runs 0x10FFFF.
Proof. exact (eq_ind _ (fun l => sound _ l 0x10FFFF) (merged_sound _ _ _ _ 0x10FFFF props_runs_ok vec_runs_ok) _ char_runs_eq). Qed.
Lemma master_sound : sound looked_up master_runs 0x10FFFF.
Proof. exact (four_sound _ _ _ _ _ _ _ _ _ char_sound case_runs_ok bidi_runs_ok master_eq). Qed.
Lemma master_all (P : Z -> words -> Prop) : (forall a b w, In (a, b, w) master_runs -> forall c, a <= c < b -> P c w) -> P 0x10FFFF (0, 0, 0, 0) ->
  forall c, 0 <= c <= 0x10FFFF -> exists w, looked_up c w /\ P c w.
Proof.
  intros H T c Hc. destruct (Z.eq_dec c 0x10FFFF) as [->|N].
  - exists (0, 0, 0, 0). split; [|exact T]. exact (conj (props_top _ (Z.le_refl _)) (conj (vec_top _ (Z.le_refl _)) (conj (case_top _ (Z.le_refl _)) (bidi_top _ (Z.le_refl _))))).
  - destruct (tiles_covers _ 0x10FFFF 0 master_tile c) as (a & b & w & Hin & Hr); [lia|].
    exists w. split; [exact (master_sound a b w c Hin Hr ltac:(lia))|exact (H a b w Hin c Hr)].
Qed.

(** ** What the getters say *)
Definition char_at (c : Z) : res char :=
  let B := fun k => getBinaryProp icu c k 1 in let E := fun k => getBinaryProp icu c k 2 in
  let* g := getGeneralCategory icu c in let* sc := getScript icu c in let* ea := getEastAsianWidth icu c in let* lb := getLineBreak icu c in
  let* sb := getSentenceBreak icu c in let* wb := getWordBreak icu c in let* gcb := getGraphemeClusterBreak icu c in let* dt := getDecompType icu c in
  let* b0 := B 0 in let* b1 := B 1 in let* b5 := B 5 in let* b8 := B 8 in let* b9 := B 9 in let* b12 := B 12 in let* b13 := B 13 in let* b18 := B 18 in
  let* b19 := B 19 in let* b22 := B 22 in let* b23 := B 23 in let* b24 := B 24 in let* b25 := B 25 in let* b26 := B 26 in let* b27 := B 27 in let* b28 := B 28 in
  let* b29 := B 29 in let* b30 := B 30 in let* b31 := B 31 in let* e26 := isExtendedPictograph icu c in let* e30 := isEmojiModifier icu c in
  let* e31 := isEmojiModifierBase icu c in let* t := get (casePropsTrie icu_case) c in let* bc := getCharDirection icu_bidi c in
  let* jt := getJoiningType icu_bidi c in let* bt := getPairedBracketType icu_bidi c in let* mi := isMirrored icu_bidi c in
  Ok (mkChar g sc ea lb sb wb gcb dt b0 b1 b5 b8 b9 b12 b13 b18 b19 b22 b23 b24 b25 b26 b27 b28 b29 b30 b31 e26 e30 e31
       (getTypeFromProps t) (negb (getTypeAndIgnorableFromProps t =? getTypeFromProps t)) bc jt bt mi).
(** the same from the values of the tables *)
Definition char_of (w : words) : res char :=
  let '(p, v, t, b) := w in
  let B := fun k => binaryPropFromVecIndex icu v k 1 in let E := fun k => binaryPropFromVecIndex icu v k 2 in
  let* sc := scriptFromVecIndex icu v in let* ea := eastAsianWidthFromVecIndex icu v in let* lb := lineBreakFromVecIndex icu v in
  let* sb := sentenceBreakFromVecIndex icu v in let* wb := wordBreakFromVecIndex icu v in let* gcb := graphemeClusterBreakFromVecIndex icu v in
  let* dt := decompTypeFromVecIndex icu v in
  let* b0 := B 0 in let* b1 := B 1 in let* b5 := B 5 in let* b8 := B 8 in let* b9 := B 9 in let* b12 := B 12 in let* b13 := B 13 in let* b18 := B 18 in
  let* b19 := B 19 in let* b22 := B 22 in let* b23 := B 23 in let* b24 := B 24 in let* b25 := B 25 in let* b26 := B 26 in let* b27 := B 27 in let* b28 := B 28 in
  let* b29 := B 29 in let* b30 := B 30 in let* b31 := B 31 in let* e26 := E 26 in let* e30 := E 30 in let* e31 := E 31 in
  Ok (mkChar (generalCategoryFromProps p) sc ea lb sb wb gcb dt b0 b1 b5 b8 b9 b12 b13 b18 b19 b22 b23 b24 b25 b26 b27 b28 b29 b30 b31 e26 e30 e31
       (getTypeFromProps t) (negb (getTypeAndIgnorableFromProps t =? getTypeFromProps t)) (getClassFromProps b)
       (Z.shiftr (Z.land b UBIDI_JT_MASK) UBIDI_JT_SHIFT) (Z.shiftr (Z.land b UBIDI_BPT_MASK) UBIDI_BPT_SHIFT) (getFlagFromProps b UBIDI_IS_MIRRORED_SHIFT)).
Lemma char_at_of c w : 0 <= c <= 0x10FFFF -> looked_up c w -> char_at c = char_of w.
Proof.
  destruct w as [[[p v] t] b]. intros Hc (G1 & G2 & G3 & G4).
  unfold char_at, char_of, getGeneralCategory, getScript, getEastAsianWidth, getLineBreak, getSentenceBreak, getWordBreak, getGraphemeClusterBreak, getDecompType,
    isExtendedPictograph, isEmojiModifier, isEmojiModifierBase, getCharDirection, getJoiningType, getPairedBracketType, isMirrored, getBinaryProp, of_char.
  replace (c >? 0x10FFFF) with false by lia. rewrite G1, G2, G3, G4. reflexivity.
Qed.

(** ** Checking a statement for all characters *)
Fixpoint all_from (f : Z -> bool) (n : nat) (c : Z) : bool := match n with O => true | S n => if f c then all_from f n (c + 1) else false end.
Lemma all_from_ok f n : forall c, all_from f n c = true -> forall x, c <= x < c + Z.of_nat n -> f x = true.
Proof.
  induction n as [|n IH]; intros c H x Hx; [lia|]. cbn [all_from] in H. destruct (f c) eqn:E; [|discriminate].
  destruct (Z.eq_dec x c) as [->|N]; [exact E|]. apply (IH (c + 1) H). lia.
Qed.
Definition far (sets : list (list (Z * Z))) (a b : Z) : bool := forallb (forallb (fun '(x, y) => (b <=? x) || (y <? a))) sets.
Lemma far_ok sets a b c l : far sets a b = true -> a <= c < b -> In l sets -> among c l = false.
Proof.
  intros H Hc Hl. unfold far in H. rewrite forallb_forall in H. specialize (H l Hl). rewrite forallb_forall in H.
  unfold among. apply not_true_is_false. intros E. apply existsb_exists in E as ([x y] & Hin & E). specialize (H _ Hin). cbv beta iota in H. lia.
Qed.
Section Check.
  Variable sets : list (list (Z * Z)).
  Variable Q : (list (Z * Z) -> bool) -> bool -> char -> bool.
  Hypothesis Hsets : In hangul sets.
  (** the statement looks only at these sets *)
  Hypothesis Hfar : forall m k, (forall l, In l sets -> m l = false) -> Q m false k = Q (fun _ => false) false k.
  Definition check_one (w : words) (f : char -> bool) : bool := match char_of w with Ok k => f k | Err _ => false end.
  Definition check_master : bool :=
    forallb (fun '(a, b, w) => check_one w (fun k =>
      if far sets a b then Q (fun _ => false) false k else all_from (fun c => Q (among c) (isLV c) k) (Z.to_nat (b - a)) a)) master_runs &&
    check_one (0, 0, 0, 0) (fun k => Q (among 0x10FFFF) (isLV 0x10FFFF) k).
  Lemma check_master_ok : check_master = true -> forall c, 0 <= c <= 0x10FFFF -> exists k, char_at c = Ok k /\ Q (among c) (isLV c) k = true.
  Proof using Hsets Hfar.
    intros H. apply andb_true_iff in H as [H H0]. rewrite forallb_forall in H.
    set (P := fun c w => exists k, char_of w = Ok k /\ Q (among c) (isLV c) k = true).
    assert (A : forall c, 0 <= c <= 0x10FFFF -> exists w, looked_up c w /\ P c w).
    { apply master_all.
      - intros a b w Hin c Hc. specialize (H _ Hin). cbv beta iota in H. unfold check_one in H. destruct (char_of w) as [k|] eqn:E; [|discriminate].
        exists k. split; [exact E|]. destruct (far sets a b) eqn:F.
        + assert (N : forall l, In l sets -> among c l = false) by (intros l Hl; exact (far_ok sets a b c l F Hc Hl)).
          unfold isLV. rewrite (N hangul Hsets). cbn [andb]. rewrite (Hfar (among c) k N). exact H.
        + apply (all_from_ok _ _ _ H). lia.
      - unfold check_one in H0. destruct (char_of (0, 0, 0, 0)) as [k|] eqn:E; [|discriminate]. exists k. split; [exact E|exact H0]. }
    intros c Hc. destruct (A c Hc) as (w & L & k & E & K). exists k. split; [rewrite (char_at_of c w Hc L); exact E|exact K].
  Qed.
End Check.
