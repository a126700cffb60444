(** * Properties C30 - C36, C55 - C57: CharProps. *)
From Coq Require Import ZArith QArith Qabs List Bool Lia String ZifyBool.
From Coq.Floats Require Import SpecFloat.
From Verif Require Import Py Arr UTrie2 Runs Utilities UtilitiesFacts CharProps CharRuns CharPropsFacts CharShipped Data_Names.
Import ListNotations.
Close Scope Q_scope.
Open Scope Z_scope.

(** ** C30: whatever the fields of a vector are, each getter returns its own *)
Theorem C30_fields : forall D V c, vec_ok V -> has_vec D c V -> c <= 0x10FFFF -> 1 <= vectorColumns D ->
  getAge D c = Ok [v_major V; v_minor V; 0; 0] /\
  getScript D c = (if v_kind V =? 0 then Ok (v_script V) else if v_kind V =? 1 then Ok 0 else if v_kind V =? 2 then Ok 1
                   else aget (scriptExt D) (v_script V)) /\
  getBlock D c = Ok (v_block V) /\ getEastAsianWidth D c = Ok (v_ea V) /\ getLineBreak D c = Ok (v_lb V) /\
  getSentenceBreak D c = Ok (v_sb V) /\ getWordBreak D c = Ok (v_wb V) /\ getGraphemeClusterBreak D c = Ok (v_gcb V) /\
  getDecompType D c = Ok (v_dt V) /\
  (forall k, 0 <= k < 32 -> getBinaryProp D c k 1 = Ok (nth (Z.to_nat k) (v_bits V) false)) /\
  isUWhiteSpace D c = Ok (nth 0 (v_bits V) false) /\ isAlphabetic D c = Ok (nth 8 (v_bits V) false) /\
  isExtendedPictograph D c = Ok (nth 0 (v_emoji V) false) /\ isEmojiComponent D c = Ok (nth 1 (v_emoji V) false) /\
  isEmoji D c = Ok (nth 2 (v_emoji V) false) /\ isEmojiPresentation D c = Ok (nth 3 (v_emoji V) false) /\
  isEmojiModifier D c = Ok (nth 4 (v_emoji V) false) /\ isEmojiModifierBase D c = Ok (nth 5 (v_emoji V) false).
Proof.
  exact (fun D V c K H Hc C => conj (age_ok D V K c H C) (conj (script_ok D V K c H Hc) (conj (block_ok D V K c H) (conj (ea_ok D V K c H)
    (conj (lb_ok D V K c H) (conj (sb_ok D V K c H) (conj (wb_ok D V K c H) (conj (gcb_ok D V K c H) (conj (dt_ok D V K c H)
    (conj (fun k Hk => binary_ok D V K c H k (proj1 Hk)) (conj (white_ok D V K c H C) (conj (alphabetic_ok D V K c H C)
    (conj (emoji_ok D V K c H 0 (conj (Z.le_refl 0) eq_refl)) (conj (emoji_ok D V K c H 1 (conj Z.le_0_1 eq_refl))
    (conj (emoji_ok D V K c H 2 (conj Z.le_0_2 eq_refl)) (conj (emoji_ok D V K c H 3 ltac:(lia)) (conj (emoji_ok D V K c H 4 ltac:(lia))
    (emoji_ok D V K c H 5 ltac:(lia))))))))))))))))))).
Qed.
Print Assumptions C30_fields.
(** any three 32 bit words are the words of exactly such a vector, and every code point has one in the shipped tables *)
Theorem C30_vectors_exist : forall w0 w1 w2, 0 <= w0 < 2 ^ 32 -> 0 <= w1 < 2 ^ 32 -> 0 <= w2 < 2 ^ 32 ->
  exists V, vec_ok V /\ word0 V = w0 /\ word1 V = w1 /\ word2 V = w2.
Proof. exact (fun w0 w1 w2 H0 H1 H2 => ex_intro _ (vec_of w0 w1 w2) (vec_of_ok w0 w1 w2 H0 H1 H2)). Qed.
Print Assumptions C30_vectors_exist.
Theorem C30_shipped_vectors : forall c, 0 <= c <= 0x10FFFF -> exists V, vec_ok V /\ has_vec icu c V.
Proof. exact vector_shipped. Qed.
Print Assumptions C30_shipped_vectors.
(** A column that does not exist should read as 0, but column 3 reads the next vector ([>] in CharProps.py:23). *)
Theorem C30_column_bound_refuted : exists c, vectorColumns icu = 3 /\ 0 <= c <= 0x10FFFF /\ getUnicodeProperties icu c 3 <> Ok 0.
Proof. exists 0x41. split; [reflexivity|]. split; [split; discriminate|]. vm_compute. discriminate. Qed.
Print Assumptions C30_column_bound_refuted.
Definition vec_A : vec := vec_of 285737241 130023872 2425856.
Example C30_A : vec_ok vec_A /\ has_vec icu 0x41 vec_A /\ v_script vec_A = 25 /\ v_block vec_A = 1 /\ v_lb vec_A = 2 /\ v_sb vec_A = 10 /\
  getScript icu 0x41 = Ok 25.
Proof.
  destruct (vec_of_ok 285737241 130023872 2425856) as (K & E0 & E1 & E2); try lia. split; [exact K|].
  split; [exists 2055; unfold vec_A; rewrite E0, E1, E2; vm_compute; auto|]. vm_compute. auto 10.
Qed.

(** ** C31

    [g] is the category the properties word gives; 0..29 are those with a name. *)
Theorem C31_categories : forall D c g, getGeneralCategory D c = Ok g -> 0 <= g < 30 ->
  (isLower D c = Ok (is_cat g ["Ll"]) /\ isUpper D c = Ok (is_cat g ["Lu"]) /\ isTitle D c = Ok (is_cat g ["Lt"]) /\
   isDigit D c = Ok (is_cat g ["Nd"]) /\ isDefined D c = Ok (negb (is_cat g ["Cn"])) /\
   isalpha D c = Ok (is_cat g ["Lu"; "Ll"; "Lt"; "Lm"; "Lo"]) /\
   isalnum D c = Ok (is_cat g ["Lu"; "Ll"; "Lt"; "Lm"; "Lo"; "Nd"]) /\
   isbase D c = Ok (is_cat g ["Lu"; "Ll"; "Lt"; "Lm"; "Lo"; "Nd"; "Nl"; "No"; "Mc"; "Me"]) /\
   iscntrl D c = Ok (is_cat g ["Cc"; "Cf"; "Zl"; "Zp"]) /\
   isJavaSpaceChar D c = Ok (is_cat g ["Zs"; "Zl"; "Zp"]) /\
   isPrint D c = Ok (negb (is_cat g ["Cn"; "Cc"; "Cf"; "Co"; "Cs"])) /\
   isgraph D c = Ok (negb (is_cat g ["Cc"; "Cf"; "Cs"; "Cn"; "Zs"; "Zl"; "Zp"])) /\
   isGraphPOSIX D c = Ok (negb (is_cat g ["Cc"; "Cs"; "Cn"; "Zs"; "Zl"; "Zp"])) /\
   isPrintPOSIX D c = Ok (negb (is_cat g ["Cc"; "Cs"; "Cn"; "Zl"; "Zp"])) /\
   ispunct D c = Ok (is_cat g ["Pd"; "Ps"; "Pe"; "Pc"; "Po"; "Pi"; "Pf"]) /\
   isIDStart D c = Ok (is_cat g ["Lu"; "Ll"; "Lt"; "Lm"; "Lo"; "Nl"]) /\
   isIDPart D c = Ok (is_cat g ["Lu"; "Ll"; "Lt"; "Lm"; "Lo"; "Nd"; "Nl"; "Pc"; "Mc"; "Mn"; "Cf"]) /\
   isJavaIDStart D c = Ok (is_cat g ["Lu"; "Ll"; "Lt"; "Lm"; "Lo"; "Sc"; "Pc"]) /\
   isJavaIDPart D c = Ok (is_cat g ["Lu"; "Ll"; "Lt"; "Lm"; "Lo"; "Nd"; "Nl"; "Sc"; "Pc"; "Mc"; "Mn"; "Cf"]))%string.
Proof.
  intros D c g G R.
  repeat split; try (apply gc_is_cat; [vm_compute; reflexivity|exact G|exact R]);
    try (apply gc_in_cat; [vm_compute; reflexivity|exact G|exact R]); try (apply gc_notin_cat; [vm_compute; reflexivity|exact G|exact R]);
    try (apply defined_cat; [exact G|exact R]).
  - unfold isPrintPOSIX, gc_is, isGraphPOSIX, gc_notin. rewrite G. cbn [bind].
    assert (F : forallb (fun g => match (if g =? GC_SPACE_SEPARATOR then Ok true else
      Ok (Z.land (gcMask g) (ors [GC_CC_MASK; GC_CS_MASK; GC_CN_MASK; GC_Z_MASK]) =? 0)) with Ok b => Bool.eqb b
      (negb (is_cat g ["Cc"; "Cs"; "Cn"; "Zl"; "Zp"]%string)) | Err _ => false end) all_gc = true) by (vm_compute; reflexivity).
    rewrite forallb_forall in F. specialize (F g (all_gc_spec g R)). cbv beta in F.
    destruct (g =? GC_SPACE_SEPARATOR); apply eqb_prop in F; congruence.
  - unfold isIDPart, gc_in, isIDIgnorable, gc_is. rewrite G. cbn [bind].
    assert (F : forallb (fun g => match (if negb (Z.land (gcMask g) (ors [GC_ND_MASK; GC_NL_MASK; GC_L_MASK; GC_PC_MASK; GC_MC_MASK; GC_MN_MASK]) =? 0)
      then Ok true else Ok (g =? GC_FORMAT_CHAR)) with Ok b => Bool.eqb b
      (is_cat g ["Lu"; "Ll"; "Lt"; "Lm"; "Lo"; "Nd"; "Nl"; "Pc"; "Mc"; "Mn"; "Cf"]%string) | Err _ => false end) all_gc = true)
      by (vm_compute; reflexivity).
    rewrite forallb_forall in F. specialize (F g (all_gc_spec g R)). cbv beta in F.
    match type of F with context [if ?b then Ok true else _] => destruct b end; apply eqb_prop in F; congruence.
  - unfold isJavaIDPart, gc_in, isIDIgnorable, gc_is. rewrite G. cbn [bind].
    assert (F : forallb (fun g => match (if negb (Z.land (gcMask g)
      (ors [GC_ND_MASK; GC_NL_MASK; GC_L_MASK; GC_SC_MASK; GC_PC_MASK; GC_MC_MASK; GC_MN_MASK]) =? 0)
      then Ok true else Ok (g =? GC_FORMAT_CHAR)) with Ok b => Bool.eqb b
      (is_cat g ["Lu"; "Ll"; "Lt"; "Lm"; "Lo"; "Nd"; "Nl"; "Sc"; "Pc"; "Mc"; "Mn"; "Cf"]%string) | Err _ => false end) all_gc = true)
      by (vm_compute; reflexivity).
    rewrite forallb_forall in F. specialize (F g (all_gc_spec g R)). cbv beta in F.
    match type of F with context [if ?b then Ok true else _] => destruct b end; apply eqb_prop in F; congruence.
Qed.
Print Assumptions C31_categories.
(** the thirty categories, by the names GeneralCategories.py gives them *)
Theorem C31_names : map cat all_gc = ["Cn"; "Lu"; "Ll"; "Lt"; "Lm"; "Lo"; "Mn"; "Me"; "Mc"; "Nd"; "Nl"; "No"; "Zs"; "Zl"; "Zp"; "Cc"; "Cf"; "Co";
  "Cs"; "Pd"; "Ps"; "Pe"; "Pc"; "Po"; "Sm"; "Sc"; "Sk"; "So"; "Pi"; "Pf"]%string.
Proof. vm_compute. reflexivity. Qed.
Print Assumptions C31_names.
(** so C31_categories speaks of every code point of the shipped tables *)
Theorem C31_shipped : forall c, 0 <= c <= 0x10FFFF -> exists g, getGeneralCategory icu c = Ok g /\ 0 <= g < 30.
Proof. exact gc_range. Qed.
Print Assumptions C31_shipped.
(** Everything that is graphic should be printable; private use characters are graphic but not printable. *)
Theorem C31_graph_print_refuted : exists c, 0 <= c <= 0x10FFFF /\ isgraph icu c = Ok true /\ isPrint icu c = Ok false.
Proof. exists 0xE000. split; [split; discriminate|]. vm_compute. auto. Qed.
Print Assumptions C31_graph_print_refuted.
Example C31_case : isalpha icu 0x3B1 = Ok true /\ ispunct icu 0x2D = Ok true /\ isPrint icu 0xAD = Ok false.
Proof. vm_compute. auto. Qed.

(** ** C57: the predicates that also look at the code point *)
Theorem C57_ranges : forall D c g, getGeneralCategory D c = Ok g -> 0 <= g < 30 -> 0 <= c ->
  (isHexDigit D c = Ok true <-> 0x41 <= c <= 0x46 \/ 0x61 <= c <= 0x66 \/ 0xFF21 <= c <= 0xFF26 \/ 0xFF41 <= c <= 0xFF46 \/ cat g = "Nd"%string) /\
  (isISOControl c = true <-> c <= 0x1F \/ 0x7F <= c <= 0x9F) /\
  (isBlank D c = Ok true <-> c = 9 \/ c = 0x20 \/ (0xA0 <= c /\ cat g = "Zs"%string)) /\
  (isspace D c = Ok true <-> 9 <= c <= 13 \/ 0x1C <= c <= 0x1F \/ c = 0x85 \/ In (cat g) ["Zs"; "Zl"; "Zp"]%string) /\
  (isWhiteSpace D c = Ok true <-> 9 <= c <= 13 \/ 0x1C <= c <= 0x1F \/
     (In (cat g) ["Zs"; "Zl"; "Zp"]%string /\ c <> 0xA0 /\ c <> 0x2007 /\ c <> 0x202F)).
Proof.
  intros D c g G R Hc.
  assert (Z1 : isDigit D c = Ok (is_cat g ["Nd"%string])) by (apply gc_is_cat; [vm_compute; reflexivity|exact G|exact R]).
  assert (Z2 : gc_is D GC_SPACE_SEPARATOR c = Ok (is_cat g ["Zs"%string])) by (apply gc_is_cat; [vm_compute; reflexivity|exact G|exact R]).
  assert (Z3 : gc_in D GC_Z_MASK c = Ok (is_cat g ["Zs"; "Zl"; "Zp"]%string)) by (apply gc_in_cat; [vm_compute; reflexivity|exact G|exact R]).
  assert (I : forall l, is_cat g l = true <-> In (cat g) l).
  { intros l. unfold is_cat. rewrite existsb_exists. split.
    - intros (s & H1 & H2). apply String.eqb_eq in H2. rewrite H2. exact H1.
    - intros H. exists (cat g). split; [exact H|apply String.eqb_refl]. }
  assert (I1 : forall s, is_cat g [s] = true <-> cat g = s) by (intros s; rewrite I; cbn; intuition).
  assert (O : forall b, Ok b = Ok true <-> b = true) by (intros; split; congruence).
  split; [|split; [|split; [|split]]].
  - unfold isHexDigit, in_range. rewrite Z1.
    destruct (((65 <=? c) && (c <? 70 + 1)) || ((97 <=? c) && (c <? 102 + 1))) eqn:E1; [split; [intros _; lia|reflexivity]|].
    destruct (((65313 <=? c) && (c <? 65318 + 1)) || ((65345 <=? c) && (c <? 65350 + 1))) eqn:E2; [split; [intros _; lia|reflexivity]|].
    rewrite O, I1. clear - E1 E2. intuition lia.
  - unfold isISOControl, in_range. lia.
  - unfold isBlank, CH_TAB, CH_SPACE. destruct (c <=? 0x9F) eqn:E; [rewrite O; clear - E Hc; intuition lia|]. rewrite Z2, O, I1. clear - E Hc. intuition lia.
  - unfold isspace, isThatControlSpace, CH_TAB, CH_CR, CH_NL. rewrite Z3. cbn [bind]. rewrite O, orb_true_iff, I.
    set (P := In (cat g) _). clearbody P. clear - Hc. intuition lia.
  - unfold isWhiteSpace, isThatASCIIControlSpace, CH_TAB, CH_CR, CH_NBSP, CH_FIGURESP, CH_NNBSP. rewrite Z3.
    destruct ((c =? 160) || (c =? 8199) || (c =? 8239)) eqn:E; [split; [discriminate|intros; lia]|].
    cbn [bind]. rewrite O, orb_true_iff, I. set (P := In (cat g) _). clearbody P. clear - Hc E. intuition lia.
Qed.
Print Assumptions C57_ranges.
(** [isspace] is the White_Space property of Unicode plus the four ASCII separators *)
Theorem C57_isspace : forall c, 0 <= c <= 0x10FFFF -> (isspace icu c = Ok true <-> isUWhiteSpace icu c = Ok true \/ 0x1C <= c <= 0x1F).
Proof. exact spaces_shipped. Qed.
Print Assumptions C57_isspace.
Example C57_case : isHexDigit icu 0x66 = Ok true /\ isHexDigit icu 0x67 = Ok false /\ isWhiteSpace icu 0x2007 = Ok false /\ isspace icu 0x2007 = Ok true.
Proof. vm_compute. auto. Qed.

(** ** C32

    Every properties word is one encoded value: *)
Theorem C32_every_word : forall p, 0 <= p -> exists g v, 0 <= g < 64 /\ numeric_ok v /\ p = g + 64 * encode v.
Proof. exact word_split. Qed.
Print Assumptions C32_every_word.
Theorem C32_encoding_unique : forall v w, numeric_ok v -> numeric_ok w -> encode v = encode w -> v = w.
Proof. exact encode_inj. Qed.
Print Assumptions C32_encoding_unique.
(** The result is the exact value for integers, or a float nearest to it.
    Missing from the full statement: integers m * 10^e with e > 24. *)
Theorem C32_values_partial : forall v g, numeric_ok v -> match v with Large _ e => e <= 24 | _ => True end -> 0 <= g < 64 ->
  match exact_value v with
  | Some q => exists x, numericValueFromProps (g + 64 * encode v) = Some x /\ means x q
  | None => numericValueFromProps (g + 64 * encode v) = None
  end.
Proof. exact numeric_value_ok. Qed.
Print Assumptions C32_values_partial.
(** 10^25: repeated multiplication by 10000.0 has lost the last bits *)
Theorem C32_large_refuted : exists v, numeric_ok v /\
  ~ exists x q, numericValueFromProps (64 * encode v) = Some x /\ exact_value v = Some q /\ means x q.
Proof.
  exists (Large 1 25). split; [cbn; lia|]. intros (x & q & E1 & E2 & M). apply meansb_spec in M.
  assert (F : match numericValueFromProps (64 * encode (Large 1 25)), exact_value (Large 1 25) with Some x, Some q => meansb x q = false | _, _ => True end)
    by (vm_compute; reflexivity).
  rewrite E1, E2, M in F. discriminate.
Qed.
Print Assumptions C32_large_refuted.
(** up to 9 * 10^21 the float is exact, and any larger one is right to fifteen digits *)
Theorem C32_large_exact : forall m e g, 1 <= m <= 9 -> 2 <= e <= 21 -> 0 <= g < 64 ->
  exists x, numericValueFromProps (g + 64 * encode (Large m e)) = Some x /\ exactly x (inject_Z (m * 10 ^ e)).
Proof. exact large_exact. Qed.
Print Assumptions C32_large_exact.
Theorem C32_large_digits : forall m e g, 1 <= m <= 9 -> 2 <= e <= 33 -> 0 <= g < 64 ->
  exists x, numericValueFromProps (g + 64 * encode (Large m e)) = Some x /\ within_15_digits x (inject_Z (m * 10 ^ e)) = true.
Proof. exact large_close. Qed.
Print Assumptions C32_large_digits.
Theorem C32_digit : forall D c v g, get (propsTrie D) c = Ok (g + 64 * encode v) -> 0 <= g < 64 -> numeric_ok v ->
  digitValue D c = Ok (match v with Decimal d => d | _ => -1 end).
Proof. exact digit_value. Qed.
Print Assumptions C32_digit.
(** in the shipped tables no integer is above 9 * 10^16, so the restriction above never matters *)
Theorem C32_shipped : forall c, 0 <= c <= 0x10FFFF -> exists v g, numeric_ok v /\ 0 <= g < 64 /\ get (propsTrie icu) c = Ok (g + 64 * encode v) /\
  match v with Large _ e => e <= 16 | Reserved _ => False | _ => True end.
Proof. exact numeric_shipped. Qed.
Print Assumptions C32_shipped.
Example C32_case : getNumericValue icu 0x4E07 = Ok (Some (PyFloat (S754_finite false 5497558138880000 (-39)))) /\
  (sf_value false 5497558138880000 (-39) == inject_Z 10000)%Q /\ getNumericValue icu 0xBD = Ok (Some (PyFloat (S754_finite false 4503599627370496 (-53)))) /\
  getNumericValue icu 0x37 = Ok (Some (PyInt 7)) /\ digitValue icu 0x37 = Ok 7.
Proof. vm_compute. auto. Qed.

(** ** C33 *)
Theorem C33_charprops : forall c, 0 <= c <= 0x10FFFF ->
  named generalCategoryNames (getGeneralCategory icu c) /\ named scriptNames (getScript icu c) /\ named blockNames (getBlock icu c) /\
  named eastAsianWidthNames (getEastAsianWidth icu c) /\ named lineBreakNames (getLineBreak icu c) /\
  named sentenceBreakNames (getSentenceBreak icu c) /\ named wordBreakNames (getWordBreak icu c) /\
  named graphemeClusterBreakNames (getGraphemeClusterBreak icu c) /\ named decompositionTypeNames (getDecompType icu c).
Proof. exact getters_named. Qed.
Print Assumptions C33_charprops.

(** ** C34 *)
Theorem C34_surrogates : forall c, 0 <= c <= 0x10FFFF -> (getGeneralCategory icu c = Ok GC_SURROGATE <-> isSurrogate c = true).
Proof. exact (fun c H => iff_trans (surrogates_shipped c H) (iff_sym (isSurrogate_spec c ltac:(lia)))). Qed.
Print Assumptions C34_surrogates.
(** Missing from the full statement: U+10FFFF. *)
Theorem C34_noncharacters_partial : forall c, 0 <= c < 0x10FFFF -> getBinaryProp icu c NONCHARACTER_CODE_POINT 1 = Ok (isUnicodeNoncharacter c).
Proof. exact nonchars_shipped. Qed.
Print Assumptions C34_noncharacters_partial.
Theorem C34_noncharacters_refuted : exists c, 0 <= c <= 0x10FFFF /\ isUnicodeNoncharacter c = true /\
  getBinaryProp icu c NONCHARACTER_CODE_POINT 1 = Ok false.
Proof. exists 0x10FFFF. split; [split; discriminate|]. vm_compute. auto. Qed.
Print Assumptions C34_noncharacters_refuted.
Example C34_case : getBinaryProp icu 0xFDD0 NONCHARACTER_CODE_POINT 1 = Ok true /\ getGeneralCategory icu 0xDBFF = Ok GC_SURROGATE.
Proof. vm_compute. auto. Qed.

(** ** C35

    The full statement: isIDIgnorable is true exactly of the ISO controls that are
    not white space and of the format characters.  It is false: *)
Theorem C35_idignorable_refuted : exists c, 0 <= c <= 0x10FFFF /\ isISOControl c = true /\ isspace icu c = Ok false /\
  isIDIgnorable icu c = Ok false /\ isIDPart icu c = Ok false /\ isJavaIDPart icu c = Ok false.
Proof. exists 0. split; [split; discriminate|]. vm_compute. auto. Qed.
Print Assumptions C35_idignorable_refuted.
(** what it computes for all tables and characters *)
Theorem C35_idignorable_is_format : forall D c g, getGeneralCategory D c = Ok g -> 0 <= g < 30 ->
  isIDIgnorable D c = Ok (is_cat g ["Cf"%string]).
Proof. intros D c g G R. apply gc_is_cat; [vm_compute; reflexivity|exact G|exact R]. Qed.
Print Assumptions C35_idignorable_is_format.
(** the right answer is returned from U+00A0 on, and for white space *)
Theorem C35_idignorable_partial : forall c, 0 <= c <= 0x10FFFF -> 0xA0 <= c \/ isISOControl c = false ->
  (isIDIgnorable icu c = Ok true <-> (isISOControl c = true /\ isspace icu c = Ok false) \/ getGeneralCategory icu c = Ok GC_FORMAT_CHAR).
Proof.
  intros c Hc H. assert (X : isISOControl c = false) by (unfold isISOControl, in_range in *; lia). rewrite X.
  unfold isIDIgnorable, gc_is. destruct (gc_range c Hc) as (g & -> & _). cbn [bind]. split.
  - intros E. right. assert (E' : (g =? GC_FORMAT_CHAR) = true) by congruence. apply Z.eqb_eq in E'. congruence.
  - intros [[E _]|E]; [discriminate|]. assert (g = GC_FORMAT_CHAR) by congruence. subst g. reflexivity.
Qed.
Print Assumptions C35_idignorable_partial.
Example C35_case : isIDIgnorable icu 0xAD = Ok true /\ isISOControl 0x7F = true.
Proof. vm_compute. auto. Qed.

(** ** C36

    The full statement: getNumericType is 0 for none, 1 for decimal, 2 for digit, 3
    for other numeric values.  It is false: *)
Theorem C36_numeric_type_refuted : exists c d, 0 <= c <= 0x10FFFF /\ digitValue icu c = Ok d /\ 0 <= d <= 9 /\
  getNumericType icu c <> Ok 1 /\ (forall k, 0 <= k <= 3 -> getNumericType icu c <> Ok k).
Proof.
  exists 0x30, 0. split; [split; discriminate|]. split; [vm_compute; reflexivity|]. split; [lia|].
  assert (E : getNumericType icu 0x30 = Ok 9) by (vm_compute; reflexivity). rewrite E. split; [discriminate|]. intros k Hk F.
  assert (k = 9) by congruence. lia.
Qed.
Print Assumptions C36_numeric_type_refuted.
(** it is the general category *)
Theorem C36_numeric_type_is_category : forall D c, getNumericType D c = getGeneralCategory D c.
Proof. exact (fun D c => eq_refl). Qed.
Print Assumptions C36_numeric_type_is_category.

(** ** C55: the shipped properties of a character fit together

    12 Noncharacter_Code_Point, 22 XID_Start, 23 XID_Continue, 24 ID_Start, 25
    ID_Continue, 7 ASCII_Hex_Digit, 6 Hex_Digit, 18 Unified_Ideograph, 9 Ideographic,
    30 Pattern_White_Space, 13 Grapheme_Extend, 26 Grapheme_Base (uprops_h.py:48-79);
    script 103 is Unknown. *)
Theorem C55_consistent : forall c, 0 <= c <= 0x10FFFF ->
  (holds (isalpha icu c) -> holds (isAlphabetic icu c)) /\
  (getGeneralCategory icu c = Ok GC_DECIMAL_DIGIT_NUMBER <-> exists d, 0 <= d <= 9 /\ digitValue icu c = Ok d) /\
  (prop 12 c -> getGeneralCategory icu c = Ok GC_UNASSIGNED) /\
  (prop 22 c -> prop 24 c) /\ (prop 24 c -> prop 25 c) /\ (prop 22 c -> prop 23 c) /\ (prop 23 c -> prop 25 c) /\
  (prop 7 c -> prop 6 c) /\
  (holds (isEmojiPresentation icu c) -> holds (isEmoji icu c)) /\
  (holds (isEmojiModifier icu c) -> holds (isEmojiPresentation icu c)) /\
  (holds (isEmojiModifierBase icu c) -> holds (isEmoji icu c)) /\
  (getAge icu c = Ok [0; 0; 0; 0] <-> getGeneralCategory icu c = Ok GC_UNASSIGNED /\ ~ prop 12 c) /\
  (getScript icu c = Ok 103 <-> getGeneralCategory icu c = Ok GC_UNASSIGNED \/ getGeneralCategory icu c = Ok GC_PRIVATE_USE_CHAR \/
    getGeneralCategory icu c = Ok GC_SURROGATE) /\
  (prop 18 c -> prop 9 c) /\
  (prop 30 c -> holds (isUWhiteSpace icu c) \/ getGeneralCategory icu c = Ok GC_FORMAT_CHAR) /\
  (prop 13 c -> ~ prop 26 c).
Proof. exact consistent_shipped. Qed.
Print Assumptions C55_consistent.
Example C55_case : prop 22 0x41 /\ prop 13 0x300 /\ holds (isEmojiModifier icu 0x1F3FB).
Proof. vm_compute. auto. Qed.

(** ** C56: blocks *)
Theorem C56_contiguous_partial : forall c1 c2 c3 k, 0 <= c1 -> c1 <= c2 <= c3 -> c3 < 0x10FFFF -> k <> 0 ->
  getBlock icu c1 = Ok k -> getBlock icu c3 = Ok k -> getBlock icu c2 = Ok k.
Proof. exact block_convex. Qed.
Print Assumptions C56_contiguous_partial.
Theorem C56_columns_partial : forall c d, 0 <= c < 0x10FFFF -> 0 <= d < 0x10FFFF -> c / 16 = d / 16 -> getBlock icu c = getBlock icu d.
Proof. exact block_columns. Qed.
Print Assumptions C56_columns_partial.
(** the last column of the last block is cut: U+10FFFF is in no block *)
Theorem C56_columns_refuted : exists c d, 0 <= c <= 0x10FFFF /\ 0 <= d <= 0x10FFFF /\ c / 16 = d / 16 /\ getBlock icu c <> getBlock icu d.
Proof.
  exists 0x10FFFE, 0x10FFFF. split; [split; discriminate|]. split; [split; discriminate|]. split; [reflexivity|]. vm_compute. discriminate.
Qed.
Print Assumptions C56_columns_refuted.
Example C56_case : getBlock icu 0x4E00 = Ok 71 /\ getBlock icu 0x9FFF = Ok 71.
Proof. vm_compute. auto. Qed.
