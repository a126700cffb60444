(** * Property C108: the last code point and the integers that are no code points *)
From Coq Require Import ZArith List Bool Lia String ZifyBool.
From Verif Require Import Py Arr UTrie2 UTrie2Lookup UTrie2Enum UTrie2EnumVal UTrie2EnumMany Runs Utilities UtilitiesFacts CharProps CharRuns CharShipped CaseProps CaseShipped BidiProps BidiShipped
  Prop_UTrie2 Prop_CharProps Prop_BidiProps.
Import ListNotations.
Open Scope Z_scope.

(** ** C24, completed: what is stored, but for U+10FFFF and above *)
Theorem C24_exact : forall L c, layout_ok L -> 0 <= c ->
  get (serialize L) c = Ok (if c <? 0x10FFFF then value_at L c else error_value L).
Proof.
  intros L c K H. destruct (c <? 0x10FFFF) eqn:E; [apply lookup_ok; auto; lia|apply lookup_error; auto; lia].
Qed.
Print Assumptions C24_exact.
Example C24_exact_case : layout_ok tiny /\ get (serialize tiny) 0x41 = Ok (value_at tiny 0x41).
Proof. split; [exact C24_tiny_ok|]. apply (C24_exact tiny 0x41 C24_tiny_ok). lia. Qed.

(** ** C26, for requests of any length in the BMP, below or above the surrogates

    A window of 2048 code points ends with a look at the block after it, which is taken
    in if it is the null block or the same as a block of one value.  If not, that block
    is remembered without having been read; when the 32 code points before it have one
    value, the next window takes it for a repetition ([hidden]).  The values are right
    exactly if no window ends in this way before the limit ([clean]). *)
Theorem C26_exact : forall V (veq : V -> V -> bool) vf t start limit rs,
  (forall a b, veq a b = true <-> a = b) ->
  nulls_ok t -> 0 <= start < limit -> (limit <= 0xD800 \/ 0xE000 <= start /\ limit <= 0x10000) -> start mod 32 = 0 ->
  limit <= 32 * index2NullOffset t \/ index2NullOffset t < 0 -> limit <= highStart t ->
  enumerator veq vf t limit start = Ok rs ->
  partition start rs limit /\ (agrees vf t rs <-> clean vf t limit start).
Proof.
  intros V veq vf t start limit rs E N B L A I H R. split.
  - apply (enumerator_partition veq vf E t start limit B (or_introl A) ltac:(lia) rs R).
  - apply (enumerator_many veq vf E t start limit N (conj B L) A I H rs R).
Qed.
Print Assumptions C26_exact.
(** both sides happen: a trie of 0..31 in every block is enumerated rightly through
    three windows, and a trie of zeros up to U+07FF and ones from there on is not *)
Definition many_trie (blk : Z -> Z) : utrie2 := mkUTrie2 (index (small_trie (fun k => if (1728 <=? k) && (k <? 1792) then 2 else blk k))) 2112 1728 2176 0x10000 2240 0.
Lemma many_nulls blk : (forall k, 0 <= blk k < 4) -> nulls_ok (many_trie blk).
Proof.
  intros H. constructor; cbn [many_trie index small_trie dataNullOffset index2NullOffset initialValue].
  - intros j Hj. rewrite aget_Ok by (cbn [alen]; lia). cbn [anth].
    repeat (match goal with |- context [if ?a <? ?b then _ else _] => destruct (Z.ltb_spec a b); try lia end). reflexivity.
  - intros k Hk. rewrite aget_Ok by (cbn [alen]; lia). cbn [anth].
    replace (1728 + k <? 2112) with true by lia.
    replace ((1728 <=? 1728 + k) && (1728 + k <? 1792)) with true by lia. eexists; split; reflexivity.
Qed.
Example C26_exact_case :
  (nulls_ok (many_trie (fun _ => 3)) /\ exists rs, enumerator Z.eqb (fun v => v) (many_trie (fun _ => 3)) 0x1020 0 = Ok rs /\
     clean (fun v => v) (many_trie (fun _ => 3)) 0x1020 0) /\
  (nulls_ok (many_trie (fun k => if k <? 64 then 0 else 1)) /\
     enumerator Z.eqb (fun v => v) (many_trie (fun k => if k <? 64 then 0 else 1)) 0x1000 0 = Ok [(0, 0x1000, 0)] /\
     ~ clean (fun v => v) (many_trie (fun k => if k <? 64 then 0 else 1)) 0x1000 0).
Proof.
  assert (N3 : nulls_ok (many_trie (fun _ => 3))) by (apply many_nulls; lia).
  assert (N1 : nulls_ok (many_trie (fun k => if k <? 64 then 0 else 1))) by (apply many_nulls; intros k; destruct (k <? 64); lia).
  split; split; auto.
  - eexists. split; [vm_compute; reflexivity|].
    assert (J : forall b, (b = 0x800 \/ b = 0x1000) -> exists x y, b - 32 <= x < b /\ b - 32 <= y < b /\ get (many_trie (fun _ => 3)) x = Ok 0 /\ get (many_trie (fun _ => 3)) y = Ok 1).
    { intros b [-> | ->]; [exists 0x7E0, 0x7E1|exists 0xFE0, 0xFE1]; repeat split; try lia; vm_compute; reflexivity. }
    assert (L : forall b v, b = 0x800 \/ b = 0x1000 -> ~ level (fun v => v) (many_trie (fun _ => 3)) b v).
    { intros b v Hb Hl. destruct (J b Hb) as (x & y & X & Y & GX & GY). destruct (Hl x X) as (u & U1 & U2), (Hl y Y) as (w & W1 & W2). congruence. }
    assert (K : forall b, b = 0x800 \/ b = 0x1000 -> ~ joined (fun v => v) (many_trie (fun _ => 3)) b /\ ~ hidden (fun v => v) (many_trie (fun _ => 3)) 0x1020 b).
    { intros b Hb. split.
      - intros (y & Y1 & [Y2|(Y2 & v & Y3)]); [|exact (L b v Hb Y3)].
        assert (Q : entry_of (many_trie (fun _ => 3)) b <> Ok 544) by (destruct Hb as [-> | ->]; vm_compute; discriminate).
        apply Q. rewrite Y1. f_equal. change (4 * y = 2176) in Y2. lia.
      - intros (v & Y3 & _). exact (L b v Hb Y3). }
    apply clean_next; [lia|apply K; auto|apply K; auto|]. apply clean_next; [lia|apply K; auto|apply K; auto|]. apply clean_end. lia.
  - split; [vm_compute; reflexivity|]. intros C.
    apply (C26_exact Z Z.eqb (fun v => v) _ 0 0x1000 [(0, 0x1000, 0)] Z.eqb_eq N1) in C; try (cbn; lia); [|vm_compute; reflexivity].
    destruct (C 0 0x1000 0 0x800 (or_introl eq_refl)) as (w & G & Q); [lia|]. vm_compute in G. congruence.
Qed.
(** above the surrogates too: zeros up to U+E7FF and ones from there on *)
Definition high_trie : utrie2 := mkUTrie2 (index (small_trie (fun k => if 2048 <=? k then 2 else if k <? 1856 then 0 else 1))) 2112 2048 2176 0x10000 2240 0.
Example C26_high_case : nulls_ok high_trie /\ enumerator Z.eqb (fun v => v) high_trie 0xF000 0xE000 = Ok [(0xE000, 0xF000, 0)] /\
  get high_trie 0xE800 = Ok 1 /\ ~ clean (fun v => v) high_trie 0xF000 0xE000.
Proof.
  assert (N : nulls_ok high_trie).
  { constructor; cbn [high_trie index small_trie dataNullOffset index2NullOffset initialValue].
    - intros j Hj. rewrite aget_Ok by (cbn [alen]; lia). cbn [anth]. repeat (match goal with |- context [if ?a <? ?b then _ else _] => destruct (Z.ltb_spec a b); try lia end). reflexivity.
    - intros k Hk. rewrite aget_Ok by (cbn [alen]; lia). cbn [anth]. replace (2048 + k <? 2112) with true by lia. replace (2048 <=? 2048 + k) with true by lia. eexists; split; reflexivity. }
  assert (E : enumerator Z.eqb (fun v => v) high_trie 0xF000 0xE000 = Ok [(0xE000, 0xF000, 0)]) by (vm_compute; reflexivity).
  split; [exact N|]. split; [exact E|]. split; [vm_compute; reflexivity|]. intros C.
  apply (C26_exact Z Z.eqb (fun v => v) high_trie 0xE000 0xF000 [(0xE000, 0xF000, 0)] Z.eqb_eq N) in C; try (cbn; lia); [|exact E].
  destruct (C 0xE000 0xF000 0 0xE800 (or_introl eq_refl)) as (w & G & Q); [lia|]. vm_compute in G. congruence.
Qed.

(** ** C34, C56 and C61, completed *)
Theorem C34_exact : forall c, 0 <= c <= 0x10FFFF ->
  getBinaryProp icu c NONCHARACTER_CODE_POINT 1 = Ok (isUnicodeNoncharacter c && negb (c =? 0x10FFFF)).
Proof.
  intros c H. destruct (c =? 0x10FFFF) eqn:E.
  - apply Z.eqb_eq in E. subst c. vm_compute. reflexivity.
  - rewrite andb_true_r. apply nonchars_shipped. lia.
Qed.
Print Assumptions C34_exact.
Theorem C56_exact : forall c d, 0 <= c <= 0x10FFFF -> 0 <= d <= 0x10FFFF -> c / 16 = d / 16 ->
  (getBlock icu c = getBlock icu d <-> (c = 0x10FFFF <-> d = 0x10FFFF)).
Proof.
  assert (N : forall d, 0 <= d < 0x10FFFF -> d / 16 = 0x10FFFF / 16 -> getBlock icu d <> getBlock icu 0x10FFFF).
  { intros d Hd Hc. rewrite (block_columns d 0x10FFFE); [vm_compute; discriminate|lia|lia|]. rewrite Hc. reflexivity. }
  intros c d Hc Hd E. destruct (Z.eq_dec c 0x10FFFF) as [->|Nc], (Z.eq_dec d 0x10FFFF) as [->|Nd].
  - split; reflexivity.
  - split; [intros H; exfalso; apply (N d); [lia|auto|auto]|intros [H _]; specialize (H eq_refl); lia].
  - split; [intros H; exfalso; apply (N c); [lia|auto|auto]|intros [_ H]; specialize (H eq_refl); lia].
  - split; [tauto|intros _; apply block_columns; lia].
Qed.
Print Assumptions C56_exact.
Theorem C61_exact : forall c, 0 <= c <= 0x10FFFF -> isUnicodeNoncharacter c = true ->
  getCharDirection icu_bidi c = Ok (if c =? 0x10FFFF then 0 else 18).
Proof.
  intros c H K. destruct (c =? 0x10FFFF) eqn:E.
  - apply Z.eqb_eq in E. subst c. vm_compute. reflexivity.
  - apply nonchar_shipped; auto; lia.
Qed.
Print Assumptions C61_exact.
Example C34_exact_case : getBinaryProp icu 0x10FFFE NONCHARACTER_CODE_POINT 1 = Ok true /\ getBinaryProp icu 0x10FFFF NONCHARACTER_CODE_POINT 1 = Ok false /\
  getBlock icu 0x10FFF0 = getBlock icu 0x10FFFE /\ getBlock icu 0x10FFFE <> getBlock icu 0x10FFFF /\
  getCharDirection icu_bidi 0x1FFFF = Ok 18 /\ getCharDirection icu_bidi 0x10FFFF = Ok 0.
Proof. vm_compute. repeat split; discriminate. Qed.

(** ** C108

    The full statement: a property getter tells an integer that is no code point from the
    code points; what it gives for U+10FFFF are the properties of U+10FFFF.

    Both parts are false.  For the tries of the module: every integer from U+10FFFF on
    reads one and the same element, every integer below -32 times the length of the index
    raises IndexError, and the integers between are counted from the end of the array. *)
Theorem C108_any_trie_partial : forall t c, 0 <= alen (index t) ->
  (0x10FFFF <= c -> get t c = aget (index t) (indexLength t + 0x80)) /\
  (c < - 32 * alen (index t) -> get t c = Err IndexError) /\
  (- 32 * alen (index t) <= c < 0 ->
     get t c = aget (index t) (4 * anth (index t) (alen (index t) + c / 32) + c mod 32)).
Proof.
  intros t c L. unfold get, indexFromCodePoint. split; [|split]; intros H.
  - replace (c <? 0xD800) with false by lia. replace (c <=? 0xFFFF) with false by lia. replace (c >=? 0x10FFFF) with true by lia. reflexivity.
  - replace (c <? 0xD800) with true by lia. unfold indexRaw, SHIFT_2. rewrite Z.shiftr_div_pow2 by lia. change (2 ^ 5) with 32.
    unfold aget at 1. pose proof (Z.div_mod c 32 ltac:(lia)). pose proof (Z.mod_pos_bound c 32 ltac:(lia)).
    replace (0 + c / 32 <? 0) with true by lia. cbv iota zeta. replace (0 <=? 0 + c / 32 + alen (index t)) with false by lia. reflexivity.
  - replace (c <? 0xD800) with true by lia. unfold indexRaw, SHIFT_2. rewrite Z.shiftr_div_pow2 by lia. change (2 ^ 5) with 32.
    unfold aget at 1. pose proof (Z.div_mod c 32 ltac:(lia)). pose proof (Z.mod_pos_bound c 32 ltac:(lia)).
    replace (0 + c / 32 <? 0) with true by lia. cbv iota zeta.
    replace (0 <=? 0 + c / 32 + alen (index t)) with true by lia. replace (0 + c / 32 + alen (index t) <? alen (index t)) with true by lia.
    cbn [andb bind]. rewrite UTrie2Enum.land31. unfold INDEX_SHIFT. rewrite Z.shiftl_mul_pow2 by lia.
    replace (0 + c / 32 + alen (index t)) with (alen (index t) + c / 32) by lia. f_equal. lia.
Qed.
Print Assumptions C108_any_trie_partial.

(** The shipped tables: U+10FFFF and everything above it gets the properties of an
    unassigned code point in no block, of no age, without case and left-to-right; only
    getScript, and the full case mappings, tell U+10FFFF from the integers above. *)
Theorem C108_char_partial : forall c, 0x10FFFF <= c ->
  getGeneralCategory icu c = Ok 0 /\ isDefined icu c = Ok false /\ getNumericType icu c = Ok 0 /\ getNumericValue icu c = Ok None /\
  digitValue icu c = Ok (-1) /\ getAge icu c = Ok [0; 0; 0; 0] /\ getBlock icu c = Ok 0 /\ getEastAsianWidth icu c = Ok 0 /\
  getLineBreak icu c = Ok 0 /\ getSentenceBreak icu c = Ok 0 /\ getWordBreak icu c = Ok 0 /\ getGraphemeClusterBreak icu c = Ok 0 /\
  getDecompType icu c = Ok 0 /\ getScript icu c = Ok (if c =? 0x10FFFF then 103 else -1) /\
  (forall bit column, 0 <= bit -> column = 1 \/ column = 2 -> getBinaryProp icu c bit column = Ok false).
Proof.
  intros c H. unfold isDefined, getGeneralCategory, getNumericType, getNumericValue, digitValue, getAge, getUnicodeProperties, getBlock, getEastAsianWidth, getLineBreak,
    getSentenceBreak, getWordBreak, getGraphemeClusterBreak, getDecompType, of_char, getScript, getBinaryProp, of_char, getNumericTypeValue.
  rewrite (props_top c H), (vec_top c H). cbn [bind].
  do 13 (split; [vm_compute; reflexivity|]). split.
  - destruct (c =? 0x10FFFF) eqn:E; [replace (c >? 0x10FFFF) with false by lia|replace (c >? 0x10FFFF) with true by lia]; vm_compute; reflexivity.
  - intros k column Hk Hc. destruct (k >=? BINARY_1_TOP); [reflexivity|]. unfold binaryPropFromVecIndex.
    assert (W : unicodePropertiesFromVecIndex icu 0 column = Ok 0) by (destruct Hc as [-> | ->]; vm_compute; reflexivity).
    rewrite W. cbn [bind]. unfold one_shl. replace (k <? 0) with false by lia. cbn [bind]. rewrite Z.land_0_l. reflexivity.
Qed.
Print Assumptions C108_char_partial.

Theorem C108_bidi_case_partial : forall c, 0x10FFFF <= c ->
  getCharDirection icu_bidi c = Ok 0 /\ getJoiningType icu_bidi c = Ok 0 /\ getJoiningGroup icu_bidi c = Ok 0 /\ getPairedBracketType icu_bidi c = Ok 0 /\
  isMirrored icu_bidi c = Ok false /\ isBidiControl icu_bidi c = Ok false /\ isJoinControl icu_bidi c = Ok false /\
  getMirror icu_bidi c = Ok c /\ getPairedBracket icu_bidi c = Ok c /\
  toLower icu_case c = Ok c /\ toUpper icu_case c = Ok c /\ toTitle icu_case c = Ok c /\
  let full := if c =? 0x10FFFF then Ok [c] else Err ValueError in
  toFullLower icu_case c = full /\ toFullUpper icu_case c = full /\ toFullTitle icu_case c = full.
Proof.
  intros c H.
  assert (J : getJoiningGroup icu_bidi c = Ok 0).
  { unfold getJoiningGroup.
    assert (A : exists a b d e, aget (indexes icu_bidi) UBIDI_IX_JG_START = Ok a /\ aget (indexes icu_bidi) UBIDI_IX_JG_LIMIT = Ok b /\
      aget (indexes icu_bidi) UBIDI_IX_JG_START2 = Ok d /\ aget (indexes icu_bidi) UBIDI_IX_JG_LIMIT2 = Ok e /\ (b <? 0x10FFFF) && (e <? 0x10FFFF) = true)
      by (eexists _, _, _, _; repeat (split; [vm_compute; reflexivity|]); vm_compute; reflexivity).
    destruct A as (a & b & d & e & -> & -> & -> & -> & A). cbn [bind].
    replace (c <? b) with false by lia. rewrite andb_false_r. replace (c <? e) with false by lia. rewrite andb_false_r. reflexivity. }
  assert (M : getMirrorFromProps icu_bidi c 0 = Ok c).
  { unfold getMirrorFromProps. change (getMirrorDeltaFromProps 0) with (Ok 0 : res Z). cbn [bind].
    change (negb (0 =? UBIDI_ESC_MIRROR_DELTA)) with true. cbv iota. f_equal. lia. }
  unfold getCharDirection, getJoiningType, getPairedBracketType, isMirrored, isBidiControl, isJoinControl, getMirror, getPairedBracket,
    toLower, toUpper, toTitle, toFullLower, toFullUpper, toFullTitle, toUpperOrTitle.
  rewrite (bidi_top c H), (case_top c H). cbn [bind].
  change (negb (hasException 0)) with true. change (isUpperOrTitle 0) with false. change (getTypeFromProps 0 =? UCASE_LOWER) with false. cbv iota.
  repeat split; auto; unfold py_chr; destruct (c =? 0x10FFFF) eqn:E.
  all: try (apply Z.eqb_eq in E; subst c; reflexivity).
  all: replace ((0 <=? c) && (c <=? 0x10FFFF)) with false by lia; reflexivity.
Qed.
Print Assumptions C108_bidi_case_partial.

(** U+10FFFF is a noncharacter of Unicode 2.0 in the block of plane 16, boundary neutral
    like its neighbour; the library says it is none of these. *)
Theorem C108_last_refuted :
  isUnicodeNoncharacter 0x10FFFF = true /\
  getBinaryProp icu 0x10FFFE NONCHARACTER_CODE_POINT 1 = Ok true /\ getBinaryProp icu 0x10FFFF NONCHARACTER_CODE_POINT 1 = Ok false /\
  getAge icu 0x10FFFE = Ok [2; 0; 0; 0] /\ getAge icu 0x10FFFF = Ok [0; 0; 0; 0] /\
  getBlock icu 0x10FFFE = Ok 110 /\ getBlock icu 0x10FFFF = Ok 0 /\
  getCharDirection icu_bidi 0x10FFFE = Ok 18 /\ getCharDirection icu_bidi 0x10FFFF = Ok 0.
Proof. vm_compute. repeat split. Qed.
Print Assumptions C108_last_refuted.

(** A negative integer is no error: the getters answer with the properties that some
    word of the trie would mean.  Each of -44928 .. -1 has a general category. *)
Definition category_given (c : Z) : bool := match getGeneralCategory icu c with Ok g => (0 <=? g) && (g <? 32) | Err _ => false end.
Fixpoint all_from (f : Z -> bool) (n : nat) (c : Z) : bool := match n with O => true | S n => f c && all_from f n (c + 1) end.
Lemma all_from_ok f : forall n c x, all_from f n c = true -> c <= x < c + Z.of_nat n -> f x = true.
Proof.
  induction n as [|n IH]; intros c x H K; [lia|]. cbn [all_from] in H. apply andb_true_iff in H as [A B].
  destruct (Z.eq_dec x c) as [->|N]; [exact A|]. apply (IH (c + 1)); [exact B|lia].
Qed.
Lemma negative_given : all_from category_given (Z.to_nat 44928) (-44928) = true.
Proof. vm_cast_no_check (eq_refl true). Qed.
Theorem C108_negative_refuted : forall c, -44928 <= c < 0 -> exists g, getGeneralCategory icu c = Ok g /\ 0 <= g < 32.
Proof.
  intros c H. pose proof (all_from_ok _ _ _ c negative_given ltac:(lia)) as A.
  unfold category_given in A. destruct (getGeneralCategory icu c) as [g|]; [|discriminate]. exists g. split; [reflexivity|lia].
Qed.
Print Assumptions C108_negative_refuted.
(** Below the length of the index times 32 every getter of a trie raises. *)
Theorem C108_far_below : forall c, 
  (c < -712832 -> getGeneralCategory icu c = Err IndexError /\ getNumericValue icu c = Err IndexError) /\
  (c < -999296 -> getScript icu c = Err IndexError /\ getBlock icu c = Err IndexError /\ getLineBreak icu c = Err IndexError) /\
  (c < -401152 -> getCharDirection icu_bidi c = Err IndexError /\ getMirror icu_bidi c = Err IndexError) /\
  (c < -395392 -> toLower icu_case c = Err IndexError /\ toUpper icu_case c = Err IndexError /\ toTitle icu_case c = Err IndexError) /\
  (c < 0 -> toFullLower icu_case c = Err ValueError /\ toFullUpper icu_case c = Err ValueError /\ toFullTitle icu_case c = Err ValueError).
Proof.
  intros c.
  assert (A : forall t n, alen (index t) = n -> 0 <= n -> c < - 32 * n -> get t c = Err IndexError).
  { intros t n <- B D. apply C108_any_trie_partial; auto. }
  split; [|split; [|split; [|split]]]; intros H.
  - unfold getGeneralCategory, getNumericValue. rewrite (A (propsTrie icu) 22276 ltac:(vm_cast_no_check (eq_refl 22276))) by lia. auto.
  - unfold getScript, getBlock, getLineBreak, of_char. replace (c >? 0x10FFFF) with false by lia.
    rewrite (A (propsVectorTrie icu) 31228 ltac:(vm_cast_no_check (eq_refl 31228))) by lia. auto.
  - unfold getCharDirection, getMirror. rewrite (A (bidiPropsTrie icu_bidi) 12536 ltac:(vm_cast_no_check (eq_refl 12536))) by lia. auto.
  - unfold toLower, toUpper, toTitle. rewrite (A (casePropsTrie icu_case) 12356 ltac:(vm_cast_no_check (eq_refl 12356))) by lia. auto.
  - unfold toFullLower, toFullUpper, toFullTitle, toUpperOrTitle, py_chr.
    replace ((0 <=? c) && (c <=? 0x10FFFF)) with false by lia. auto.
Qed.
Print Assumptions C108_far_below.

Example C108_case : map (getGeneralCategory icu) [-1; -2; -44929; -712833; 0x110000] = [Ok 29; Ok 21; Err IndexError; Err IndexError; Ok 0] /\
  map (getScript icu) [0x10FFFF; 0x110000] = [Ok 103; Ok (-1)] /\ toLower icu_case (-1) = Ok (-1).
Proof. vm_compute. repeat split. Qed.
