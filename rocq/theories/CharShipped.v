(** * CharProps: facts about the shipped tables. *)
From Coq Require Import ZArith List Bool Lia String ZifyBool.
From Verif Require Import Py Arr UTrie2 Runs Utilities UtilitiesFacts CharProps CharRuns CharPropsFacts Data_Names.
Import ListNotations.
Open Scope Z_scope.

(** ** Getters are total *)
Definition in_dict (d : list (Z * string)) (k : Z) : Prop := exists s, In (k, s) d.
Definition dict_upto (d : list (Z * string)) (n : Z) : bool := forallb (fun k => existsb (fun p => fst p =? k) d) (zrange 0 n).
Lemma dict_upto_ok d n k : dict_upto d n = true -> 0 <= k < n -> in_dict d k.
Proof.
  intros H Hk. unfold dict_upto in H. rewrite forallb_forall in H. specialize (H k (proj2 (zrange_spec 0 n k) Hk)).
  apply existsb_exists in H as ([k' s] & Hin & E). apply Z.eqb_eq in E. cbn in E. subst k'. exists s. exact Hin.
Qed.
Definition upto (r : res Z) (n : Z) : bool := match r with Ok k => (0 <=? k) && (k <? n) | Err _ => false end.
Definition named (d : list (Z * string)) (r : res Z) : Prop := exists k, r = Ok k /\ in_dict d k.
Lemma upto_named d n r : dict_upto d n = true -> upto r n = true -> named d r.
Proof.
  intros H U. destruct r as [k|]; [|discriminate]. exists k. split; [reflexivity|]. eapply dict_upto_ok; eauto. cbn in U. lia.
Qed.

Definition vec_values_ok (p v : Z) : bool :=
  upto (Ok (generalCategoryFromProps p)) 30 && upto (scriptFromVecIndex icu v) 193 && upto (blockFromVecIndex icu v) 309 &&
  upto (eastAsianWidthFromVecIndex icu v) 6 && upto (lineBreakFromVecIndex icu v) 43 && upto (sentenceBreakFromVecIndex icu v) 15 &&
  upto (wordBreakFromVecIndex icu v) 23 && upto (graphemeClusterBreakFromVecIndex icu v) 18 && upto (decompTypeFromVecIndex icu v) 18.
Lemma vec_values_checked : forallb (fun r => let '(a, b, (p, v)) := r in vec_values_ok p v) char_runs && vec_values_ok 0 0 = true.
Proof. vm_compute. reflexivity. Qed.

Lemma getters_named c : 0 <= c <= 0x10FFFF ->
  named generalCategoryNames (getGeneralCategory icu c) /\ named scriptNames (getScript icu c) /\ named blockNames (getBlock icu c) /\
  named eastAsianWidthNames (getEastAsianWidth icu c) /\ named lineBreakNames (getLineBreak icu c) /\
  named sentenceBreakNames (getSentenceBreak icu c) /\ named wordBreakNames (getWordBreak icu c) /\
  named graphemeClusterBreakNames (getGraphemeClusterBreak icu c) /\ named decompositionTypeNames (getDecompType icu c).
Proof.
  intros Hc. destruct (char_values _ vec_values_checked c Hc) as (p & v & Gp & Gv & H).
  unfold vec_values_ok in H. rewrite !andb_true_iff in H. destruct H as [[[[[[[[H1 H2] H3] H4] H5] H6] H7] H8] H9].
  unfold getGeneralCategory, getScript, getBlock, getEastAsianWidth, getLineBreak, getSentenceBreak, getWordBreak, getGraphemeClusterBreak,
    getDecompType, of_char. replace (c >? 0x10FFFF) with false by lia. rewrite Gp, Gv. cbn [bind].
  repeat split; (eapply upto_named; [|eassumption]; vm_compute; reflexivity).
Qed.
Lemma gc_range c : 0 <= c <= 0x10FFFF -> exists g, getGeneralCategory icu c = Ok g /\ 0 <= g < 30.
Proof.
  intros Hc. destruct (char_values _ vec_values_checked c Hc) as (p & v & Gp & Gv & H).
  unfold vec_values_ok in H. rewrite !andb_true_iff in H. destruct H as [[[[[[[[H1 _] _] _] _] _] _] _] _].
  unfold getGeneralCategory. rewrite Gp. cbn [bind]. eexists. split; [reflexivity|]. cbn in H1. lia.
Qed.

(** ** Words of a vector *)
Definition word (k v : Z) : Z := match aget (vectors icu) (v + k) with Ok x => x | Err _ => 0 end.
Definition vecs_readable (p v : Z) : bool := (0 <=? v) && (v + 2 <? alen (vectors icu)).
Lemma vecs_readable_checked : forallb (fun r => let '(a, b, (p, v)) := r in vecs_readable p v) char_runs && vecs_readable 0 0 = true.
Proof. vm_compute. reflexivity. Qed.

Lemma char_checked whole each (P : Z -> Z -> Z -> Prop) : check_chars whole each = true ->
  (forall a b p v c, whole a b p v = true -> a <= c < b -> P c p v) -> (forall c p v, each c p v = true -> P c p v) -> P 0x10FFFF 0 0 ->
  forall c, 0 <= c <= 0x10FFFF -> exists p v, get (propsTrie icu) c = Ok p /\ get (propsVectorTrie icu) c = Ok v /\ P c p v.
Proof. intros H HW HE T. apply char_all; [|exact T]. exact (check_chars_ok whole each P H HW HE). Qed.

Lemma word_at k v : 0 <= k <= 2 -> vecs_readable 0 v = true -> unicodePropertiesFromVecIndex icu v k = Ok (word k v).
Proof.
  intros Hk H. unfold unicodePropertiesFromVecIndex, word, vecs_readable in *. apply andb_true_iff in H as [H1 H2].
  assert (E : 0 <= v + k < alen (vectors icu)) by (clear - H1 H2 Hk; destruct (vectors icu) as [n f]; cbn [alen] in *; lia).
  rewrite aget_Ok by exact E. reflexivity.
Qed.

(** what the getters say in terms of the table values *)
Lemma readable c p v : 0 <= c <= 0x10FFFF -> get (propsTrie icu) c = Ok p -> get (propsVectorTrie icu) c = Ok v -> vecs_readable 0 v = true.
Proof.
  intros Hc Gp Gv. destruct (char_values _ vecs_readable_checked c Hc) as (p' & v' & _ & Gv' & H).
  rewrite Gv in Gv'. injection Gv' as <-. exact H.
Qed.
Lemma binary_shipped c p v k col : 0 <= c <= 0x10FFFF -> get (propsTrie icu) c = Ok p -> get (propsVectorTrie icu) c = Ok v ->
  0 <= k < 32 -> 0 <= col <= 2 -> getBinaryProp icu c k col = Ok (Z.testbit (word col v) k).
Proof.
  intros Hc Gp Gv Hk Hcol. unfold getBinaryProp, BINARY_1_TOP, of_char, binaryPropFromVecIndex, one_shl.
  replace (k >=? 32) with false by lia. rewrite Gv. cbn [bind]. rewrite word_at by (auto; eapply readable; eauto). cbn [bind].
  replace (k <? 0) with false by lia. cbn [bind]. rewrite land_bit by lia. reflexivity.
Qed.
Lemma gc_shipped c p : get (propsTrie icu) c = Ok p -> getGeneralCategory icu c = Ok (Z.land p 0x1F).
Proof. intros G. unfold getGeneralCategory. rewrite G. reflexivity. Qed.

Lemma uniprops_shipped c p v k : 0 <= c <= 0x10FFFF -> get (propsTrie icu) c = Ok p -> get (propsVectorTrie icu) c = Ok v ->
  0 <= k <= 2 -> getUnicodeProperties icu c k = Ok (word k v).
Proof.
  intros Hc Gp Gv Hk. unfold getUnicodeProperties. change (vectorColumns icu) with 3. replace (k >? 3) with false by lia.
  rewrite Gv. cbn [bind]. apply word_at; [exact Hk|exact (readable c p v Hc Gp Gv)].
Qed.
Lemma white_shipped c p v : 0 <= c <= 0x10FFFF -> get (propsTrie icu) c = Ok p -> get (propsVectorTrie icu) c = Ok v ->
  isUWhiteSpace icu c = Ok (Z.testbit (word 1 v) 0).
Proof.
  intros Hc Gp Gv. unfold isUWhiteSpace. rewrite (uniprops_shipped c p v 1 Hc Gp Gv) by lia. cbn [bind].
  unfold bit, WHITE_SPACE. rewrite land_bit by lia. reflexivity.
Qed.
Lemma alphabetic_shipped c p v : 0 <= c <= 0x10FFFF -> get (propsTrie icu) c = Ok p -> get (propsVectorTrie icu) c = Ok v ->
  isAlphabetic icu c = Ok (Z.testbit (word 1 v) 8).
Proof.
  intros Hc Gp Gv. unfold isAlphabetic. rewrite (uniprops_shipped c p v 1 Hc Gp Gv) by lia. cbn [bind].
  unfold bit, ALPHABETIC. rewrite land_bit by lia. reflexivity.
Qed.
Lemma gc_in_shipped c p m : get (propsTrie icu) c = Ok p -> gc_in icu m c = Ok (negb (Z.land (gcMask (Z.land p 0x1F)) m =? 0)).
Proof. intros G. unfold gc_in. rewrite (gc_shipped c p G). reflexivity. Qed.

(** ** Surrogates and noncharacters *)
Lemma surrogates_checked : check_chars
  (fun a b p v => if Z.land p 0x1F =? 18 then (0xD800 <=? a) && (b <=? 0xE000) else (b <=? 0xD800) || (0xE000 <=? a)) (fun _ _ _ => false) = true.
Proof. vm_compute. reflexivity. Qed.
Lemma surrogates_shipped c : 0 <= c <= 0x10FFFF -> (getGeneralCategory icu c = Ok GC_SURROGATE <-> 0xD800 <= c <= 0xDFFF).
Proof.
  intros Hc.
  destruct (char_checked _ _ (fun c p v => (Z.land p 0x1F =? 18) = true <-> 0xD800 <= c <= 0xDFFF) surrogates_checked) with (c := c)
    as (p & v & Gp & Gv & H).
  - intros a b p v x H Hx. destruct (Z.land p 0x1F =? 18); lia.
  - discriminate.
  - cbn. lia.
  - exact Hc.
  - rewrite (gc_shipped c p Gp), <- H, Z.eqb_eq. unfold GC_SURROGATE. split; congruence.
Qed.

Lemma nonchars_checked : check_chars
  (fun a b p v => negb (Z.testbit (word 1 v) 12) && (a / 65536 =? (b - 1) / 65536) && ((b - 1) mod 65536 <? 0xFFFE) &&
    ((b <=? 0xFDD0) || (0xFDF0 <=? a)))
  (fun c p v => Bool.eqb (Z.testbit (word 1 v) 12) (isUnicodeNoncharacter c)) = true.
Proof. vm_compute. reflexivity. Qed.
Lemma plane_tail a b c : a / 65536 = (b - 1) / 65536 -> (b - 1) mod 65536 < 0xFFFE -> a <= c < b -> c mod 65536 < 0xFFFE.
Proof.
  intros H1 H2 H. pose proof (Z.div_mod a 65536). pose proof (Z.div_mod (b - 1) 65536). pose proof (Z.div_mod c 65536).
  pose proof (Z.mod_pos_bound a 65536). pose proof (Z.mod_pos_bound c 65536). pose proof (Z.div_le_mono a c 65536).
  pose proof (Z.div_le_mono c (b - 1) 65536). lia.
Qed.
Lemma not_nonchar c : c mod 65536 < 0xFFFE -> c < 0xFDD0 \/ 0xFDF0 <= c -> isUnicodeNoncharacter c = false.
Proof. intros H1 H2. destruct (isUnicodeNoncharacter c) eqn:E; [|reflexivity]. apply nonchar_spec in E as [E|(pl & _ & [->| ->])]; [lia| |];
  rewrite Z.add_comm, Z.mod_add in H1 by lia; discriminate H1. Qed.
Lemma nonchars_shipped c : 0 <= c < 0x10FFFF -> getBinaryProp icu c NONCHARACTER_CODE_POINT 1 = Ok (isUnicodeNoncharacter c).
Proof.
  intros Hc.
  destruct (char_checked _ _ (fun c p v => c < 0x10FFFF -> Z.testbit (word 1 v) 12 = isUnicodeNoncharacter c) nonchars_checked) with (c := c)
    as (p & v & Gp & Gv & H).
  - intros a b p v x H Hx _. rewrite !andb_true_iff in H. destruct H as [[[H1 H2] H3] H4].
    apply negb_true_iff in H1. rewrite H1. symmetry. apply not_nonchar; [|clear - H4 Hx; lia].
    apply (plane_tail a b); [apply Z.eqb_eq; exact H2|apply Z.ltb_lt; exact H3|exact Hx].
  - intros x p v H _. apply eqb_prop. exact H.
  - lia.
  - lia.
  - rewrite (binary_shipped c p v) by (auto; unfold NONCHARACTER_CODE_POINT; lia).
    unfold NONCHARACTER_CODE_POINT. rewrite H by lia. reflexivity.
Qed.

(** ** Consistency of the properties of a character *)
Definition imp (a b : bool) : bool := if a then b else true.
Lemma imp_ok a b : imp a b = true -> a = true -> b = true.
Proof. intros H ->. exact H. Qed.
Definition w1 (k v : Z) : bool := Z.testbit (word 1 v) k.
Definition w2 (k v : Z) : bool := Z.testbit (word 2 v) k.
Definition gcp (p k : Z) : bool := Z.land p 0x1F =? k.
Definition consistent (p v : Z) : bool :=
  imp (negb (Z.land (gcMask (Z.land p 0x1F)) GC_L_MASK =? 0)) (w1 8 v) &&
  Bool.eqb (gcp p 9) ((1 <=? Z.shiftr p 6) && (Z.shiftr p 6 <=? 10)) &&
  imp (w1 12 v) (gcp p 0) && imp (w1 22 v) (w1 24 v) && imp (w1 24 v) (w1 25 v) && imp (w1 22 v) (w1 23 v) && imp (w1 23 v) (w1 25 v) &&
  imp (w1 7 v) (w1 6 v) && imp (w2 29 v) (w2 28 v) && imp (w2 30 v) (w2 29 v) && imp (w2 31 v) (w2 28 v) &&
  Bool.eqb (Z.shiftr (word 0 v) 24 =? 0) (gcp p 0 && negb (w1 12 v)) &&
  Bool.eqb (match scriptFromVecIndex icu v with Ok s => s =? 103 | Err _ => false end) (gcp p 0 || gcp p 17 || gcp p 18) &&
  imp (w1 18 v) (w1 9 v) && imp (w1 30 v) (w1 0 v || gcp p 16) && imp (w1 13 v) (negb (w1 26 v)).
Lemma consistent_checked : forallb (fun r => let '(a, b, (p, v)) := r in consistent p v) char_runs && consistent 0 0 = true.
Proof. vm_compute. reflexivity. Qed.

Lemma spaces_checked : check_chars
  (fun a b p v => (0xA0 <=? a) && Bool.eqb (w1 0 v) (negb (Z.land (gcMask (Z.land p 0x1F)) GC_Z_MASK =? 0)))
  (fun c p v => Bool.eqb (negb (Z.land (gcMask (Z.land p 0x1F)) GC_Z_MASK =? 0) || isThatControlSpace c)
                         (w1 0 v || ((0x1C <=? c) && (c <=? 0x1F)))) = true.
Proof. vm_compute. reflexivity. Qed.

(** the same, said with the getters *)
Definition holds (r : res bool) : Prop := r = Ok true.
Definition prop (k c : Z) : Prop := holds (getBinaryProp icu c k 1).
Lemma prop_w1 c p v k : 0 <= c <= 0x10FFFF -> get (propsTrie icu) c = Ok p -> get (propsVectorTrie icu) c = Ok v -> 0 <= k < 32 ->
  (prop k c <-> w1 k v = true).
Proof. intros Hc Gp Gv Hk. unfold prop, holds, w1. rewrite (binary_shipped c p v k 1) by (auto; lia). split; congruence. Qed.
Lemma emoji_w2 c p v k : 0 <= c <= 0x10FFFF -> get (propsTrie icu) c = Ok p -> get (propsVectorTrie icu) c = Ok v -> 0 <= k < 32 ->
  (holds (getBinaryProp icu c k 2) <-> w2 k v = true).
Proof. intros Hc Gp Gv Hk. unfold holds, w2. rewrite (binary_shipped c p v k 2) by (auto; lia). split; congruence. Qed.
Lemma gc_gcp c p k : get (propsTrie icu) c = Ok p -> (getGeneralCategory icu c = Ok k <-> gcp p k = true).
Proof. intros G. rewrite (gc_shipped c p G). unfold gcp. rewrite Z.eqb_eq. split; congruence. Qed.
Lemma age_shipped c p v : 0 <= c <= 0x10FFFF -> get (propsTrie icu) c = Ok p -> get (propsVectorTrie icu) c = Ok v ->
  (getAge icu c = Ok [0; 0; 0; 0] <-> (Z.shiftr (word 0 v) 24 =? 0) = true).
Proof.
  intros Hc Gp Gv. unfold getAge. rewrite (uniprops_shipped c p v 0 Hc Gp Gv) by lia. cbn [bind]. unfold ageFromProps, AGE_SHIFT.
  set (a := Z.shiftr (word 0 v) 24). clearbody a. rewrite Z.eqb_eq. split.
  - intros H. assert (H1 : Z.shiftr a 4 = 0) by congruence. assert (H2 : Z.land a 0xF = 0) by congruence.
    change 0xF with (Z.ones 4) in H2. rewrite Z.land_ones in H2 by lia. rewrite Z.shiftr_div_pow2 in H1 by lia.
    rewrite (Z.div_mod a (2 ^ 4)) by lia. rewrite H1, H2. reflexivity.
  - intros ->. reflexivity.
Qed.
Lemma script_shipped c v : 0 <= c <= 0x10FFFF -> get (propsVectorTrie icu) c = Ok v -> getScript icu c = scriptFromVecIndex icu v.
Proof. intros Hc Gv. unfold getScript. replace (c >? 0x10FFFF) with false by lia. rewrite Gv. reflexivity. Qed.
Lemma digit_shipped c p : get (propsTrie icu) c = Ok p ->
  ((exists d, 0 <= d <= 9 /\ digitValue icu c = Ok d) <-> (1 <=? Z.shiftr p 6) && (Z.shiftr p 6 <=? 10) = true).
Proof.
  intros G. unfold digitValue, getNumericTypeValue, NUMERIC_TYPE_VALUE_SHIFT, NTV_DECIMAL_START. rewrite G. cbn [bind].
  set (n := Z.shiftr p 6). clearbody n. split.
  - intros (d & Hd & E). destruct (n - 1 <=? 9) eqn:L; [|assert (d = -1) by congruence; lia]. assert (d = n - 1) by congruence. lia.
  - intros H. exists (n - 1). split; [lia|]. replace (n - 1 <=? 9) with true by lia. reflexivity.
Qed.

Definition well_defined (c : Z) : Prop :=
  (holds (isalpha icu c) -> holds (isAlphabetic icu c)) /\
  (getGeneralCategory icu c = Ok GC_DECIMAL_DIGIT_NUMBER <-> exists d, 0 <= d <= 9 /\ digitValue icu c = Ok d) /\
  (prop 12 c -> getGeneralCategory icu c = Ok GC_UNASSIGNED) /\
  (prop 22 c -> prop 24 c) /\ (prop 24 c -> prop 25 c) /\ (prop 22 c -> prop 23 c) /\ (prop 23 c -> prop 25 c) /\
  (prop 7 c -> prop 6 c) /\
  (holds (isEmojiPresentation icu c) -> holds (isEmoji icu c)) /\
  (holds (isEmojiModifier icu c) -> holds (isEmojiPresentation icu c)) /\
  (holds (isEmojiModifierBase icu c) -> holds (isEmoji icu c)) /\
  (getAge icu c = Ok [0; 0; 0; 0] <-> getGeneralCategory icu c = Ok GC_UNASSIGNED /\ ~ prop 12 c) /\
  (getScript icu c = Ok 103 <-> getGeneralCategory icu c = Ok GC_UNASSIGNED \/ getGeneralCategory icu c = Ok GC_PRIVATE_USE_CHAR \/
    getGeneralCategory icu c = Ok GC_SURROGATE) /\
  (prop 18 c -> prop 9 c) /\
  (prop 30 c -> holds (isUWhiteSpace icu c) \/ getGeneralCategory icu c = Ok GC_FORMAT_CHAR) /\
  (prop 13 c -> ~ prop 26 c).
Lemma true_or_not (b : bool) : negb b = true <-> ~ b = true.
Proof. destruct b; cbn [negb]; intuition congruence. Qed.
Lemma eqb_iff a b : Bool.eqb a b = true -> (a = true <-> b = true).
Proof. intros H. apply eqb_prop in H. rewrite H. tauto. Qed.
Lemma consistent_shipped c : 0 <= c <= 0x10FFFF -> well_defined c.
Proof.
  intros Hc. destruct (char_values _ consistent_checked c Hc) as (p & v & Gp & Gv & H).
  unfold consistent in H. rewrite !andb_true_iff in H.
  destruct H as [[[[[[[[[[[[[[[H1 H2] H3] H4] H5] H6] H7] H8] H9] H10] H11] H12] H13] H14] H15] H16].
  unfold well_defined. rewrite !(prop_w1 c p v) by (auto; lia).
  unfold isEmojiPresentation, isEmoji, isEmojiModifier, isEmojiModifierBase. rewrite !(emoji_w2 c p v) by (auto; lia).
  rewrite !(gc_gcp c p _ Gp), (age_shipped c p v Hc Gp Gv), (digit_shipped c p Gp), (script_shipped c v Hc Gv).
  unfold isalpha, holds. rewrite (gc_in_shipped c p _ Gp), (alphabetic_shipped c p v Hc Gp Gv), (white_shipped c p v Hc Gp Gv).
  assert (O : forall b, Ok b = Ok true <-> b = true) by (intros; split; congruence). rewrite !O.
  split; [apply imp_ok; exact H1|]. split; [apply eqb_iff; exact H2|].
  do 9 (split; [apply imp_ok; assumption|]).
  split; [rewrite (eqb_iff _ _ H12), andb_true_iff, true_or_not; reflexivity|].
  split. { apply eqb_iff in H13. rewrite !orb_true_iff in H13. unfold GC_UNASSIGNED, GC_PRIVATE_USE_CHAR, GC_SURROGATE.
    destruct (scriptFromVecIndex icu v) as [s|e]; [|split; [discriminate|intros X; assert (false = true) by tauto; discriminate]].
    rewrite Z.eqb_eq in H13. split; [intros E; assert (s = 103) by congruence; tauto|]. intros X. f_equal. tauto. }
  split; [apply imp_ok; exact H14|].
  split; [intros X; apply (imp_ok _ _ H15), orb_true_iff in X; exact X|].
  intros X. apply true_or_not, (imp_ok _ _ H16 X).
Qed.

Lemma spaces_shipped c : 0 <= c <= 0x10FFFF ->
  (holds (isspace icu c) <-> holds (isUWhiteSpace icu c) \/ 0x1C <= c <= 0x1F).
Proof.
  intros Hc.
  destruct (char_checked _ _ (fun c p v => negb (Z.land (gcMask (Z.land p 0x1F)) GC_Z_MASK =? 0) || isThatControlSpace c =
    w1 0 v || ((0x1C <=? c) && (c <=? 0x1F))) spaces_checked) with (c := c) as (p & v & Gp & Gv & H).
  - intros a b p v x H Hx. apply andb_true_iff in H as [H1 H2]. apply eqb_prop in H2. rewrite H2.
    set (q := negb (Z.land (gcMask (Z.land p 31)) GC_Z_MASK =? 0)). clearbody q. unfold isThatControlSpace.
    replace (x <=? 0x9f) with false by lia. replace (x <=? 0x1F) with false by lia. cbn [andb]. rewrite andb_false_r. reflexivity.
  - intros x p v H. apply eqb_prop in H. exact H.
  - reflexivity.
  - exact Hc.
  - unfold isspace, holds. rewrite (gc_in_shipped c p _ Gp). cbn [bind]. rewrite H, (white_shipped c p v Hc Gp Gv). unfold w1.
    destruct (Z.testbit (word 1 v) 0); cbn [orb].
    + split; [left; reflexivity|reflexivity].
    + split; [intros E; right; assert ((0x1C <=? c) && (c <=? 0x1F) = true) by congruence; lia|].
      intros [E|E]; [discriminate|]. replace (0x1C <=? c) with true by lia. replace (c <=? 0x1F) with true by lia. reflexivity.
Qed.

(** ** Blocks *)
Fixpoint block_merge (acc : option (Z * Z * Z)) (l : list (Z * Z * (Z * Z))) : list (Z * Z * Z) :=
  match l with
  | [] => match acc with Some r => [r] | None => [] end
  | (a, b, (p, v)) :: r =>
      let k := match blockFromVecIndex icu v with Ok k => k | Err _ => -1 end in
      match acc with
      | Some (a0, b0, k0) => if k =? k0 then block_merge (Some (a0, b, k0)) r else (a0, b0, k0) :: block_merge (Some (a, b, k)) r
      | None => block_merge (Some (a, b, k)) r
      end
  end.
Definition block_table : list (Z * Z * Z) := Eval vm_compute in block_merge None char_runs.
Fixpoint within_entry (a b k : Z) (t : list (Z * Z * Z)) : bool :=
  match t with
  | [] => false
  | (a0, b0, k0) :: r => if b0 <=? a then within_entry a b k r else if a0 <=? a then if b <=? b0 then k =? k0 else false else false
  end.
Lemma within_entry_ok a b k t : within_entry a b k t = true -> exists a0 b0, In (a0, b0, k) t /\ a0 <= a /\ b <= b0.
Proof.
  induction t as [|[[a0 b0] k0] r IH]; cbn [within_entry]; [discriminate|].
  destruct (b0 <=? a). { intros H. destruct (IH H) as (a1 & b1 & I & L). exists a1, b1. split; [right; exact I|exact L]. }
  destruct (a0 <=? a) eqn:E1; [|discriminate]. destruct (b <=? b0) eqn:E2; [|discriminate]. intros H. apply Z.eqb_eq in H. subst k0.
  exists a0, b0. split; [left; reflexivity|lia].
Qed.
Lemma blocks_checked : forallb (fun r => let '(a, b, (p, v)) := r in
  match blockFromVecIndex icu v with Ok k => within_entry a b k block_table | Err _ => false end) char_runs = true.
Proof. vm_compute. reflexivity. Qed.
(** two entries do not overlap and have different blocks, and they begin and end at multiples of 16 *)
Definition same_entry (e f : Z * Z * Z) : bool :=
  let '(a, b, k) := e in let '(a', b', k') := f in (a =? a') && (b =? b') && (k =? k').
Definition apart (e f : Z * Z * Z) : bool :=
  let '(a, b, k) := e in let '(a', b', k') := f in
  if same_entry e f then true else ((b <=? a') || (b' <=? a)) && ((k =? 0) || negb (k =? k')).
Definition aligned (e : Z * Z * Z) : bool := let '(a, b, k) := e in (a mod 16 =? 0) && ((b mod 16 =? 0) || (b =? 0x10FFFF)).
Lemma block_table_checked : forallb (fun e => aligned e && forallb (apart e) block_table) block_table = true.
Proof. vm_compute. reflexivity. Qed.
Lemma block_entry c : 0 <= c < 0x10FFFF -> exists a b k, In (a, b, k) block_table /\ a <= c < b /\ getBlock icu c = Ok k.
Proof.
  intros Hc. destruct (char_all (fun c p v => c < 0x10FFFF -> exists a b k, In (a, b, k) block_table /\ a <= c < b /\
    blockFromVecIndex icu v = Ok k)) with (c := c) as (p & v & Gp & Gv & H).
  - intros a b p v Hin x Hx _. pose proof blocks_checked as F. rewrite forallb_forall in F. specialize (F _ Hin). cbv beta iota in F.
    destruct (blockFromVecIndex icu v) as [k|]; [|discriminate]. apply within_entry_ok in F as (a0 & b0 & Hk & E1 & E2).
    exists a0, b0, k. split; [exact Hk|]. split; [lia|reflexivity].
  - lia.
  - lia.
  - destruct H as (a & b & k & Hin & Hab & E); [lia|]. exists a, b, k. repeat split; auto; try lia.
    unfold getBlock, of_char. rewrite Gv. exact E.
Qed.
Lemma entries_apart a b k a' b' k' : In (a, b, k) block_table -> In (a', b', k') block_table ->
  (a = a' /\ b = b' /\ k = k') \/ ((b <= a' \/ b' <= a) /\ (k = 0 \/ k <> k')).
Proof.
  intros H1 H2. pose proof block_table_checked as F. rewrite forallb_forall in F. specialize (F _ H1). apply andb_true_iff in F as [_ F].
  rewrite forallb_forall in F. specialize (F _ H2). unfold apart, same_entry in F.
  destruct ((a =? a') && (b =? b') && (k =? k')) eqn:E; lia.
Qed.
Lemma entry_aligned a b k : In (a, b, k) block_table -> a mod 16 = 0 /\ (b mod 16 = 0 \/ b = 0x10FFFF).
Proof.
  intros H1. pose proof block_table_checked as F. rewrite forallb_forall in F. specialize (F _ H1). apply andb_true_iff in F as [F _].
  unfold aligned in F. lia.
Qed.
Lemma block_convex c1 c2 c3 k : 0 <= c1 -> c1 <= c2 <= c3 -> c3 < 0x10FFFF -> k <> 0 ->
  getBlock icu c1 = Ok k -> getBlock icu c3 = Ok k -> getBlock icu c2 = Ok k.
Proof.
  intros H1 H2 H3 Hk E1 E3.
  destruct (block_entry c1) as (a & b & k1 & I1 & A1 & F1); [lia|]. destruct (block_entry c3) as (a' & b' & k3 & I3 & A3 & F3); [lia|].
  destruct (block_entry c2) as (a2 & b2 & k2 & I2 & A2 & F2); [lia|].
  assert (k1 = k) by congruence. assert (k3 = k) by congruence. subst k1 k3.
  destruct (entries_apart _ _ _ _ _ _ I1 I3) as [(-> & -> & _)|X]; [|lia].
  destruct (entries_apart _ _ _ _ _ _ I3 I2) as [(-> & -> & ->)|Y]; [exact F2|lia].
Qed.
Lemma col_of a b c d : a mod 16 = 0 -> b mod 16 = 0 \/ b = 0x10FFFF -> a <= c < b -> c / 16 = d / 16 -> d < 0x10FFFF -> a <= d < b.
Proof.
  intros. pose proof (Z.div_mod a 16). pose proof (Z.div_mod b 16). pose proof (Z.div_mod c 16). pose proof (Z.div_mod d 16).
  pose proof (Z.mod_pos_bound c 16). pose proof (Z.mod_pos_bound d 16). lia.
Qed.
Lemma block_columns c d : 0 <= c < 0x10FFFF -> 0 <= d < 0x10FFFF -> c / 16 = d / 16 -> getBlock icu c = getBlock icu d.
Proof.
  intros Hc Hd E. destruct (block_entry c Hc) as (a & b & k & I & A & F). destruct (block_entry d Hd) as (a' & b' & k' & I' & A' & F').
  destruct (entry_aligned _ _ _ I) as [L1 L2]. pose proof (col_of a b c d L1 L2 A E ltac:(lia)).
  destruct (entries_apart _ _ _ _ _ _ I I') as [(-> & -> & ->)|Y]; [congruence|lia].
Qed.

(** ** Numeric values *)
Definition numeric_small (p v : Z) : bool :=
  (0 <=? p) && match decode_ntv (Z.shiftr p 6) with Large _ e => e <=? 16 | Reserved _ => false | _ => true end.
Lemma numeric_checked : forallb (fun r => let '(a, b, (p, v)) := r in numeric_small p v) char_runs && numeric_small 0 0 = true.
Proof. vm_compute. reflexivity. Qed.
Lemma numeric_shipped c : 0 <= c <= 0x10FFFF -> exists v g, numeric_ok v /\ 0 <= g < 64 /\ get (propsTrie icu) c = Ok (g + 64 * encode v) /\
  match v with Large _ e => e <= 16 | Reserved _ => False | _ => True end.
Proof.
  intros Hc. destruct (char_values _ numeric_checked c Hc) as (p & v & Gp & _ & H). unfold numeric_small in H.
  apply andb_true_iff in H as [H0 H]. apply Z.leb_le in H0. destruct (word_split p H0) as (g & w & Hg & Kw & E).
  exists w, g. split; [exact Kw|]. split; [exact Hg|]. split; [congruence|].
  assert (S : Z.shiftr p 6 = encode w) by (fold (numericTypeValueFromProps p); rewrite E; apply ntv_of; exact Hg).
  rewrite S in H. destruct (decode_ntv_ok (encode w)) as [Kd Ed]. { rewrite <- S. apply Z.shiftr_nonneg. exact H0. }
  rewrite (encode_inj _ _ Kd Kw Ed) in H. destruct w; try exact I; [apply Z.leb_le; exact H|discriminate].
Qed.

(** ** Every code point has a vector *)
Definition words_ok (p v : Z) : bool := forallb (fun k => (0 <=? word k v) && (word k v <? 2 ^ 32)) [0; 1; 2].
Lemma words_checked : forallb (fun r => let '(a, b, (p, v)) := r in words_ok p v) char_runs && words_ok 0 0 = true.
Proof. vm_compute. reflexivity. Qed.
Lemma vector_shipped c : 0 <= c <= 0x10FFFF -> exists V, vec_ok V /\ has_vec icu c V.
Proof.
  intros Hc. destruct (char_values _ words_checked c Hc) as (p & v & Gp & Gv & H). unfold words_ok in H. rewrite forallb_forall in H.
  assert (W : forall k, In k [0; 1; 2] -> 0 <= word k v < 2 ^ 32).
  { intros k Hk. specialize (H k Hk). apply andb_true_iff in H as [A B]. split; [apply Z.leb_le, A|apply Z.ltb_lt, B]. }
  clear H. destruct (vec_of_ok (word 0 v) (word 1 v) (word 2 v)) as (K & E0 & E1 & E2); try (apply W; cbn; tauto).
  exists (vec_of (word 0 v) (word 1 v) (word 2 v)). split; [exact K|]. exists v. split; [exact Gv|]. rewrite E0, E1, E2.
  pose proof (fun k Hk => word_at k v Hk (readable c p v Hc Gp Gv)) as R. unfold unicodePropertiesFromVecIndex in R.
  split; [|split; apply R; lia]. rewrite <- (Z.add_0_r v) at 1. apply R. lia.
Qed.
