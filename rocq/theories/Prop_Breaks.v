(** * Boundary, derived, layout and default values are those that Unicode computes from other properties (C109-C111) *)
From Coq Require Import ZArith List Bool Lia ZifyBool.
From Verif Require Import Py Arr UTrie2 CharProps CaseProps CaseShipped BidiProps SpecChar MasterRuns.
Import ListNotations.
Open Scope Z_scope.

(** [k] is what the library says of [c]: every field is the answer of the function named *)
Definition described (c : Z) (k : char) : Prop :=
  getGeneralCategory icu c = Ok (category k) /\ getScript icu c = Ok (script k) /\ getEastAsianWidth icu c = Ok (width k) /\
  getLineBreak icu c = Ok (lineBreak k) /\ getSentenceBreak icu c = Ok (sentenceBreak k) /\ getWordBreak icu c = Ok (wordBreak k) /\
  getGraphemeClusterBreak icu c = Ok (graphemeBreak k) /\ getDecompType icu c = Ok (decompType k) /\
  getBinaryProp icu c 0 1 = Ok (White_Space k) /\ getBinaryProp icu c 1 1 = Ok (Dash k) /\ getBinaryProp icu c 5 1 = Ok (Math k) /\
  getBinaryProp icu c 8 1 = Ok (Alphabetic k) /\ getBinaryProp icu c 9 1 = Ok (Ideographic k) /\ getBinaryProp icu c 12 1 = Ok (Noncharacter k) /\
  getBinaryProp icu c 13 1 = Ok (Grapheme_Extend k) /\ getBinaryProp icu c 18 1 = Ok (Unified_Ideograph k) /\ getBinaryProp icu c 19 1 = Ok (Default_Ignorable k) /\
  getBinaryProp icu c 22 1 = Ok (XID_Start k) /\ getBinaryProp icu c 23 1 = Ok (XID_Continue k) /\ getBinaryProp icu c 24 1 = Ok (ID_Start k) /\
  getBinaryProp icu c 25 1 = Ok (ID_Continue k) /\ getBinaryProp icu c 26 1 = Ok (Grapheme_Base k) /\ getBinaryProp icu c 27 1 = Ok (Sentence_Terminal k) /\
  getBinaryProp icu c 28 1 = Ok (Variation_Selector k) /\ getBinaryProp icu c 29 1 = Ok (Pattern_Syntax k) /\ getBinaryProp icu c 30 1 = Ok (Pattern_White_Space k) /\
  getBinaryProp icu c 31 1 = Ok (Prepended_Concatenation_Mark k) /\ isExtendedPictograph icu c = Ok (Extended_Pictographic k) /\
  isEmojiModifier icu c = Ok (Emoji_Modifier k) /\ isEmojiModifierBase icu c = Ok (Emoji_Modifier_Base k) /\
  (exists t, get (casePropsTrie icu_case) c = Ok t /\ getTypeFromProps t = caseType k /\
     getTypeAndIgnorableFromProps t = (if caseIgnorable k then caseType k + 4 else caseType k)) /\
  getCharDirection icu_bidi c = Ok (bidiClass k) /\ getJoiningType icu_bidi c = Ok (joiningType k) /\
  getPairedBracketType icu_bidi c = Ok (bracketType k) /\ isMirrored icu_bidi c = Ok (mirrored k).

Lemma ignorable_spec t : getTypeAndIgnorableFromProps t = getTypeFromProps t \/ getTypeAndIgnorableFromProps t = getTypeFromProps t + 4.
Proof.
  unfold getTypeAndIgnorableFromProps, getTypeFromProps. change (Z.lor UCASE_TYPE_MASK UCASE_IGNORABLE) with (Z.ones 3). change UCASE_TYPE_MASK with (Z.ones 2).
  rewrite !Z.land_ones by lia. change (2 ^ 3) with 8. change (2 ^ 2) with 4.
  assert (H := Z.rem_mul_r t 4 2 ltac:(lia) ltac:(lia)). change (4 * 2) with 8 in H.
  assert (B := Z.mod_pos_bound (t / 4) 2 ltac:(lia)). lia.
Qed.
Lemma bind_ok {A B} (e : res A) (f : A -> res B) r (P : Prop) : (forall x, e = Ok x -> f x = Ok r -> P) -> bind e f = Ok r -> P.
Proof. destruct e as [x|]; cbn [bind]; intros H E; [exact (H x eq_refl E)|discriminate]. Qed.
Lemma ok_eq {A} (x y : A) : Ok x = Ok y -> x = y.
Proof. congruence. Qed.
Lemma char_at_described c k : char_at c = Ok k -> described c k.
Proof.
  unfold char_at. cbv zeta.
  apply bind_ok; intros x0 h0.
  apply bind_ok; intros x1 h1.
  apply bind_ok; intros x2 h2.
  apply bind_ok; intros x3 h3.
  apply bind_ok; intros x4 h4.
  apply bind_ok; intros x5 h5.
  apply bind_ok; intros x6 h6.
  apply bind_ok; intros x7 h7.
  apply bind_ok; intros x8 h8.
  apply bind_ok; intros x9 h9.
  apply bind_ok; intros x10 h10.
  apply bind_ok; intros x11 h11.
  apply bind_ok; intros x12 h12.
  apply bind_ok; intros x13 h13.
  apply bind_ok; intros x14 h14.
  apply bind_ok; intros x15 h15.
  apply bind_ok; intros x16 h16.
  apply bind_ok; intros x17 h17.
  apply bind_ok; intros x18 h18.
  apply bind_ok; intros x19 h19.
  apply bind_ok; intros x20 h20.
  apply bind_ok; intros x21 h21.
  apply bind_ok; intros x22 h22.
  apply bind_ok; intros x23 h23.
  apply bind_ok; intros x24 h24.
  apply bind_ok; intros x25 h25.
  apply bind_ok; intros x26 h26.
  apply bind_ok; intros x27 h27.
  apply bind_ok; intros x28 h28.
  apply bind_ok; intros x29 h29.
  apply bind_ok; intros x30 h30.
  apply bind_ok; intros x31 h31.
  apply bind_ok; intros x32 h32.
  apply bind_ok; intros x33 h33.
  apply bind_ok; intros x34 h34.
  intros H. apply ok_eq in H. subst k. unfold described.
  cbv beta iota delta [category script width lineBreak sentenceBreak wordBreak graphemeBreak decompType White_Space Dash Math Alphabetic Ideographic Noncharacter
    Grapheme_Extend Unified_Ideograph Default_Ignorable XID_Start XID_Continue ID_Start ID_Continue Grapheme_Base Sentence_Terminal Variation_Selector Pattern_Syntax
    Pattern_White_Space Prepended_Concatenation_Mark Extended_Pictographic Emoji_Modifier Emoji_Modifier_Base caseType caseIgnorable bidiClass joiningType bracketType mirrored].
  apply conj; [exact h0|].
  apply conj; [exact h1|].
  apply conj; [exact h2|].
  apply conj; [exact h3|].
  apply conj; [exact h4|].
  apply conj; [exact h5|].
  apply conj; [exact h6|].
  apply conj; [exact h7|].
  apply conj; [exact h8|].
  apply conj; [exact h9|].
  apply conj; [exact h10|].
  apply conj; [exact h11|].
  apply conj; [exact h12|].
  apply conj; [exact h13|].
  apply conj; [exact h14|].
  apply conj; [exact h15|].
  apply conj; [exact h16|].
  apply conj; [exact h17|].
  apply conj; [exact h18|].
  apply conj; [exact h19|].
  apply conj; [exact h20|].
  apply conj; [exact h21|].
  apply conj; [exact h22|].
  apply conj; [exact h23|].
  apply conj; [exact h24|].
  apply conj; [exact h25|].
  apply conj; [exact h26|].
  apply conj; [exact h27|].
  apply conj; [exact h28|].
  apply conj; [exact h29|].
  apply conj; [|exact (conj h31 (conj h32 (conj h33 h34)))].
  exists x30. split; [exact h30|]. split; [reflexivity|].
  destruct (ignorable_spec x30) as [I|I]; rewrite I; [rewrite Z.eqb_refl; reflexivity|].
  destruct (Z.eqb_spec (getTypeFromProps x30 + 4) (getTypeFromProps x30)); cbn [negb]; lia.
Qed.
Lemma same {A} (e : res A) x y : e = Ok x -> e = Ok y -> x = y.
Proof. congruence. Qed.
Lemma char_eta k : k = mkChar (category k) (script k) (width k) (lineBreak k) (sentenceBreak k) (wordBreak k) (graphemeBreak k) (decompType k) (White_Space k) (Dash k) (Math k) (Alphabetic k) (Ideographic k) (Noncharacter k) (Grapheme_Extend k) (Unified_Ideograph k) (Default_Ignorable k) (XID_Start k) (XID_Continue k) (ID_Start k) (ID_Continue k) (Grapheme_Base k) (Sentence_Terminal k) (Variation_Selector k) (Pattern_Syntax k) (Pattern_White_Space k) (Prepended_Concatenation_Mark k) (Extended_Pictographic k) (Emoji_Modifier k) (Emoji_Modifier_Base k)
  (caseType k) (caseIgnorable k) (bidiClass k) (joiningType k) (bracketType k) (mirrored k).
Proof. destruct k. reflexivity. Qed.
Lemma described_unique c k k' : described c k -> described c k' -> k = k'.
Proof.
  intros (h0 & h1 & h2 & h3 & h4 & h5 & h6 & h7 & h8 & h9 & h10 & h11 & h12 & h13 & h14 & h15 & h16 & h17 & h18 & h19 & h20 & h21 & h22 & h23 & h24 & h25 & h26 & h27 & h28 & h29 & (t & h30 & T & I) & h31 & h32 & h33 & h34)
    (g0 & g1 & g2 & g3 & g4 & g5 & g6 & g7 & g8 & g9 & g10 & g11 & g12 & g13 & g14 & g15 & g16 & g17 & g18 & g19 & g20 & g21 & g22 & g23 & g24 & g25 & g26 & g27 & g28 & g29 & (t' & g30 & T' & I') & g31 & g32 & g33 & g34).
  assert (t = t') as <- by exact (same _ _ _ h30 g30).
  assert (N : caseType k = caseType k') by congruence.
  assert (M : caseIgnorable k = caseIgnorable k').
  { rewrite I, <- N in I'. clear - I'. destruct (caseIgnorable k), (caseIgnorable k'); lia || reflexivity. }
  rewrite (char_eta k), (char_eta k'). rewrite N, M.
  rewrite (same _ _ _ h0 g0).
  rewrite (same _ _ _ h1 g1).
  rewrite (same _ _ _ h2 g2).
  rewrite (same _ _ _ h3 g3).
  rewrite (same _ _ _ h4 g4).
  rewrite (same _ _ _ h5 g5).
  rewrite (same _ _ _ h6 g6).
  rewrite (same _ _ _ h7 g7).
  rewrite (same _ _ _ h8 g8).
  rewrite (same _ _ _ h9 g9).
  rewrite (same _ _ _ h10 g10).
  rewrite (same _ _ _ h11 g11).
  rewrite (same _ _ _ h12 g12).
  rewrite (same _ _ _ h13 g13).
  rewrite (same _ _ _ h14 g14).
  rewrite (same _ _ _ h15 g15).
  rewrite (same _ _ _ h16 g16).
  rewrite (same _ _ _ h17 g17).
  rewrite (same _ _ _ h18 g18).
  rewrite (same _ _ _ h19 g19).
  rewrite (same _ _ _ h20 g20).
  rewrite (same _ _ _ h21 g21).
  rewrite (same _ _ _ h22 g22).
  rewrite (same _ _ _ h23 g23).
  rewrite (same _ _ _ h24 g24).
  rewrite (same _ _ _ h25 g25).
  rewrite (same _ _ _ h26 g26).
  rewrite (same _ _ _ h27 g27).
  rewrite (same _ _ _ h28 g28).
  rewrite (same _ _ _ h29 g29).
  rewrite (same _ _ _ h31 g31).
  rewrite (same _ _ _ h32 g32).
  rewrite (same _ _ _ h33 g33).
  rewrite (same _ _ _ h34 g34).
  reflexivity.
Qed.
Lemma all_described c : 0 <= c <= 0x10FFFF -> exists k, described c k.
Proof.
  intros Hc. destruct (master_all (fun c w => exists k, char_of w = Ok k)) with (c := c) as (w & L & k & E); [| |exact Hc|].
  - intros a b w Hin x _. assert (H : forallb (fun '(a, b, w) => match char_of w with Ok _ => true | Err _ => false end) master_runs = true) by (vm_compute; reflexivity).
    rewrite forallb_forall in H. specialize (H _ Hin). cbv beta iota in H. destruct (char_of w) as [k|]; [exists k; reflexivity|discriminate].
  - destruct (char_of (0, 0, 0, 0)) as [k|] eqn:E; [exists k; reflexivity|]. vm_compute in E. discriminate.
  - exists k. apply char_at_described. rewrite (char_at_of c w Hc L). exact E.
Qed.

Ltac member := first [left; reflexivity | right; member].
Ltac only_those := intros m k H; repeat match goal with |- context [m ?l] => rewrite (H l) by member end; reflexivity.
Lemma breaks_sets m k : (forall l, In l breakSets -> m l = false) -> breaks_ok m false k = breaks_ok (fun _ => false) false k.
Proof. revert m k. unfold breaks_ok, graphemeBreakSaid, wordBreakSaid, sentenceBreakSaid. only_those. Qed.
Lemma derived_sets m k : (forall l, In l derivedSets -> m l = false) -> derived_ok m k = derived_ok (fun _ => false) k.
Proof. revert m k. unfold derived_ok. only_those. Qed.
Lemma layout_sets m k : (forall l, In l layoutSets -> m l = false) -> layout_ok m k = layout_ok (fun _ => false) k.
Proof. revert m k. unfold layout_ok. only_those. Qed.
Lemma unassigned_sets m k : (forall l, In l unassignedSets -> m l = false) -> unassigned_ok m k = unassigned_ok (fun _ => false) k.
Proof. revert m k. unfold unassigned_ok. only_those. Qed.

Lemma by_check sets Q c k : In hangul sets -> (forall m k, (forall l, In l sets -> m l = false) -> Q m false k = Q (fun _ => false) false k) ->
  check_master sets Q = true -> 0 <= c <= 0x10FFFF -> described c k -> Q (among c) (isLV c) k = true.
Proof.
  intros I F H Hc D. destruct (check_master_ok sets Q I F H c Hc) as (k' & E & R). rewrite (described_unique c k k' D (char_at_described c k' E)). exact R.
Qed.
Lemma breaks_hold c k : 0 <= c <= 0x10FFFF -> described c k -> breaks_ok (among c) (isLV c) k = true.
Proof. apply (by_check breakSets breaks_ok c k); [member|exact breaks_sets|vm_cast_no_check (eq_refl true)]. Qed.
Lemma derived_hold c k : 0 <= c <= 0x10FFFF -> described c k -> derived_ok (among c) k = true.
Proof. apply (by_check derivedSets (fun m _ k => derived_ok m k) c k); [member|exact derived_sets|vm_cast_no_check (eq_refl true)]. Qed.
Lemma layout_hold c k : 0 <= c <= 0x10FFFF -> described c k -> layout_ok (among c) k = true.
Proof. apply (by_check layoutSets (fun m _ k => layout_ok m k) c k); [member|exact layout_sets|vm_cast_no_check (eq_refl true)]. Qed.
Lemma unassigned_hold c k : 0 <= c <= 0x10FFFF -> described c k -> unassigned_ok (among c) k = true.
Proof. apply (by_check unassignedSets (fun m _ k => unassigned_ok m k) c k); [member|exact unassigned_sets|vm_cast_no_check (eq_refl true)]. Qed.

(** ** C109: text boundaries *)
Theorem C109_total : forall c, 0 <= c <= 0x10FFFF -> exists k, described c k /\ forall k', described c k' -> k' = k.
Proof. intros c Hc. destruct (all_described c Hc) as (k & D). exists k. split; [exact D|]. intros k' D'. exact (described_unique c k' k D' D). Qed.
Print Assumptions C109_total.
Theorem C109_graphemes : forall c k, 0 <= c <= 0x10FFFF -> described c k ->
  getGraphemeClusterBreak icu c = Ok (graphemeBreakSaid (among c) (isLV c) k).
Proof.
  intros c k Hc D. assert (H := breaks_hold c k Hc D). unfold breaks_ok in H. apply andb_true_iff in H as [H _]. apply andb_true_iff in H as [H _].
  apply Z.eqb_eq in H. rewrite <- H. apply D.
Qed.
Print Assumptions C109_graphemes.
Theorem C109_words : forall c k, 0 <= c <= 0x10FFFF -> described c k -> getWordBreak icu c = Ok (wordBreakSaid (among c) k).
Proof.
  intros c k Hc D. assert (H := breaks_hold c k Hc D). unfold breaks_ok in H. apply andb_true_iff in H as [H _]. apply andb_true_iff in H as [_ H].
  apply Z.eqb_eq in H. rewrite <- H. apply D.
Qed.
Print Assumptions C109_words.
Theorem C109_sentences : forall c k, 0 <= c <= 0x10FFFF -> described c k -> getSentenceBreak icu c = Ok (sentenceBreakSaid (among c) k).
Proof.
  intros c k Hc D. assert (H := breaks_hold c k Hc D). unfold breaks_ok in H. apply andb_true_iff in H as [_ H].
  apply Z.eqb_eq in H. rewrite <- H. apply D.
Qed.
Print Assumptions C109_sentences.
(** U+0308 extends, U+AC01 is an LVT syllable, U+1F1E9 a regional indicator; U+05D0 is a Hebrew letter, the dot is MidNumLet and ATerm *)
Example C109_case : getGraphemeClusterBreak icu 0x308 = Ok 3 /\ getGraphemeClusterBreak icu 0xAC01 = Ok 7 /\ getGraphemeClusterBreak icu 0x1F1E9 = Ok 12 /\
  getWordBreak icu 0x5D0 = Ok 14 /\ getWordBreak icu 0x2E = Ok 11 /\ getSentenceBreak icu 0x2E = Ok 1 /\ getSentenceBreak icu 0x41 = Ok 10.
Proof. repeat split; vm_compute; reflexivity. Qed.

(** ** C110: derived properties, and properties that follow from others *)
Theorem C110_derived : forall c k, 0 <= c <= 0x10FFFF -> described c k ->
  (caseType k =? 1) = ((category k =? Ll) || among c Other_Lowercase) /\
  (caseType k =? 2) = ((category k =? Lu) || among c Other_Uppercase) /\
  (caseType k =? 3) = (category k =? Lt) /\
  caseIgnorable k = (one_of (category k) [Mn; Me; Cf; Lm; Sk] || one_of (wordBreak k) [4; 11; 15]) /\
  ID_Start k = ((one_of (category k) [Lu; Ll; Lt; Lm; Lo; Nl] || among c Other_ID_Start) && negb (Pattern_Syntax k) && negb (Pattern_White_Space k)) /\
  ID_Continue k = ((ID_Start k || one_of (category k) [Mn; Mc; Nd; Pc] || among c Other_ID_Continue) && negb (Pattern_Syntax k) && negb (Pattern_White_Space k)) /\
  XID_Start k = (ID_Start k && negb (among c notXID) && negb (among c notXIDStart)) /\
  XID_Continue k = (ID_Continue k && negb (among c notXID)) /\
  Default_Ignorable k = (((category k =? Cf) || Variation_Selector k || among c Other_Default_Ignorable) && negb (Prepended_Concatenation_Mark k) && negb (White_Space k) && negb (among c annotations)) /\
  Grapheme_Base k = (negb (one_of (category k) [Cc; Cf; Cs; Co; Cn; Zl; Zp]) && negb (Grapheme_Extend k)) /\
  White_Space k = (one_of (category k) [Zs; Zl; Zp] || among c whiteControls) /\
  Pattern_White_Space k = (among c patternWhite) /\
  Dash k = ((category k =? Pd) || among c otherDashes) /\
  (one_of (category k) [Mn; Me] = true -> Grapheme_Extend k = true) /\
  (category k =? Sm = true -> Math k = true) /\
  (negb (caseType k =? 0) || one_of (category k) [Lt; Lm; Lo; Nl] = true -> Alphabetic k = true) /\
  (Alphabetic k = true -> negb (caseType k =? 0) || one_of (category k) [Lt; Lm; Lo; Nl; Mn; Mc; So] = true) /\
  (Unified_Ideograph k = true -> (category k =? Lo) && (script k =? Han) = true).
Proof.
  intros c k Hc D. assert (H := derived_hold c k Hc D). unfold derived_ok in H.
  repeat (apply andb_true_iff in H; destruct H as [H ?]).
  repeat match goal with E : Bool.eqb _ _ = true |- _ => apply eqb_prop in E | E : implb _ _ = true |- _ => rewrite implb_true_iff in E end.
  repeat (apply conj; [assumption|]). assumption.
Qed.
Print Assumptions C110_derived.
Theorem C110_layout : forall c k, 0 <= c <= 0x10FFFF -> described c k ->
  (width k =? ea_Fullwidth) = (decompType k =? dt_Wide) /\
  (width k =? ea_Halfwidth) = ((decompType k =? dt_Narrow) || among c won) /\
  (Ideographic k = true -> width k =? ea_Wide = true) /\
  (category k =? Co = true -> (width k =? ea_Ambiguous) && (lineBreak k =? lb_Unknown) = true) /\
  (lineBreak k =? lb_Surrogate) = (category k =? Cs) /\
  (lineBreak k =? lb_E_Base) = (Emoji_Modifier_Base k) /\
  (lineBreak k =? lb_E_Modifier) = (Emoji_Modifier k) /\
  (lineBreak k =? lb_Hebrew_Letter) = ((script k =? Hebrew) && (category k =? Lo)) /\
  (lineBreak k =? lb_Carriage_Return) = (among c CR) /\
  (lineBreak k =? lb_Line_Feed) = (among c LF) /\
  (lineBreak k =? lb_ZWJ) = (among c ZWJ) /\
  (lineBreak k =? lb_Regional_Indicator) = (among c regionalIndicators) /\
  (lineBreak k =? lb_JL) = (among c jamoL) /\
  (lineBreak k =? lb_JV) = (among c jamoV) /\
  (lineBreak k =? lb_JT) = (among c jamoT) /\
  (lineBreak k =? lb_H2) = (graphemeBreak k =? 6) /\
  (lineBreak k =? lb_H3) = (graphemeBreak k =? 7) /\
  (lineBreak k =? lb_Numeric) = (((category k =? Nd) && negb (among c fullwidthDigits)) || among c arabicSeparators) /\
  (bidiClass k =? bc_NSM) = (one_of (category k) [Mn; Me] && negb (among c letterMarks)) /\
  (one_of (bidiClass k) [bc_B; bc_S; bc_WS]) = ((White_Space k && negb (among c noBreakSpaces)) || among c separatorControls) /\
  (among c noBreakSpaces = true -> bidiClass k =? bc_CS = true) /\
  (one_of (category k) [Co; Cs] = true -> bidiClass k =? bc_L = true) /\
  (one_of (category k) [Lu; Ll; Lt] = true -> one_of (bidiClass k) [bc_L; bc_R] = true) /\
  (mirrored k = true -> bidiClass k =? bc_ON = true) /\
  (negb (bracketType k =? 0)) = (one_of (category k) [Ps; Pe] && mirrored k) /\
  (joiningType k =? jt_Transparent) = ((one_of (category k) [Mn; Me; Cf] && negb (among c notTransparent)) || among c adlamMark) /\
  (joiningType k =? jt_Join_Causing) = (among c joinCausing).
Proof.
  intros c k Hc D. assert (H := layout_hold c k Hc D). unfold layout_ok in H.
  repeat (apply andb_true_iff in H; destruct H as [H ?]).
  repeat match goal with E : Bool.eqb _ _ = true |- _ => apply eqb_prop in E | E : implb _ _ = true |- _ => rewrite implb_true_iff in E end.
  repeat (apply conj; [assumption|]). assumption.
Qed.
Print Assumptions C110_layout.
Lemma shown c f : match char_at c with Ok k => f k | Err _ => false end = true -> exists k, described c k /\ f k = true.
Proof. destruct (char_at c) as [k|] eqn:E; [|discriminate]. intros H. exists k. split; [exact (char_at_described c k E)|exact H]. Qed.
(** a is lower case and starts identifiers, the feminine ordinal indicator is lower case without being Ll; U+FF21 is wide by its decomposition *)
Example C110_case : (exists k, described 0x61 k /\ (caseType k =? 1) && ID_Start k && XID_Start k = true) /\
  (exists k, described 0xAA k /\ (caseType k =? 1) && (category k =? Lo) = true) /\
  (exists k, described 0xFF21 k /\ (width k =? ea_Fullwidth) && (decompType k =? dt_Wide) = true).
Proof. split; [|split]; apply shown; vm_cast_no_check (eq_refl true). Qed.

(** ** C111: the values of unassigned code points *)
Theorem C111_unassigned : forall c k, 0 <= c <= 0x10FFFF -> described c k -> category k = Cn ->
  bidiClass k = (if Noncharacter k || Default_Ignorable k then bc_BN else if among c arabicBlocks then bc_AL else if among c rightToLeft then bc_R
                 else if among c currency then bc_ET else bc_L) /\
  width k = (if among c ideographs then ea_Wide else ea_Neutral) /\
  lineBreak k = (if among c ideographs || Extended_Pictographic k then lb_Ideographic else if among c currency then lb_Prefix_Numeric else lb_Unknown) /\
  graphemeBreak k = (if Default_Ignorable k then 1 else 0) /\ wordBreak k = 0 /\ sentenceBreak k = 0 /\ decompType k = 0 /\ caseType k = 0 /\
  joiningType k = 0 /\ bracketType k = 0 /\ mirrored k = false /\ Alphabetic k = false /\ Ideographic k = false /\ ID_Continue k = false /\ White_Space k = false.
Proof.
  intros c k Hc D G. assert (H := unassigned_hold c k Hc D). unfold unassigned_ok in H. rewrite (proj2 (Z.eqb_eq _ _) G) in H. cbn [negb] in H.
  repeat (apply andb_true_iff in H; destruct H as [H ?]).
  repeat match goal with E : (_ =? _) = true |- _ => apply Z.eqb_eq in E | E : negb _ = true |- _ => apply negb_true_iff in E end.
  repeat (apply conj; [assumption|]). assumption.
Qed.
Print Assumptions C111_unassigned.
(** U+0378 is unassigned, and so is U+10D3F, kept for a script written from right to left *)
Example C111_case : getGeneralCategory icu 0x378 = Ok Cn /\ getCharDirection icu_bidi 0x378 = Ok bc_L /\ getGeneralCategory icu 0x10D3F = Ok Cn /\
  getCharDirection icu_bidi 0x10D3F = Ok bc_AL /\ getGeneralCategory icu 0x2FA1E = Ok Cn /\ getEastAsianWidth icu 0x2FA1E = Ok ea_Wide.
Proof. repeat split; vm_compute; reflexivity. Qed.
