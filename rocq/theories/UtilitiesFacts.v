From Coq Require Import ZArith List Bool Lia ZifyBool.
From Verif Require Import Py Utilities.
Import ListNotations.
Open Scope Z_scope.
Ltac Zify.zify_post_hook ::= Z.to_euclidean_division_equations.

(** ** Masks as arithmetic *)

Lemma land_ones_mod c n : 0 <= n -> Z.land c (Z.ones n) = c mod 2 ^ n.
Proof. intros; apply Z.land_ones; auto. Qed.

(** clearing the low bits of a number below 2^m *)
Lemma land_high c m n : 0 <= n <= m -> 0 <= c < 2 ^ m ->
  Z.land c (Z.ones m - Z.ones n) = c / 2 ^ n * 2 ^ n.
Proof.
  intros Hn Hc.
  rewrite <- Z.shiftr_div_pow2, <- Z.shiftl_mul_pow2 by lia.
  assert (E : Z.ones m - Z.ones n = Z.shiftl (Z.ones (m - n)) n).
  { rewrite Z.shiftl_mul_pow2, !Z.ones_equiv by lia.
    assert (2 ^ m = 2 ^ (m - n) * 2 ^ n) by (rewrite <- Z.pow_add_r by lia; f_equal; lia). nia. }
  rewrite E. apply Z.bits_inj'. intros i Hi.
  rewrite Z.land_spec, !Z.shiftl_spec by lia.
  destruct (Z_lt_le_dec i n).
  - rewrite !(Z.testbit_neg_r _ (i - n)) by lia. apply andb_false_r.
  - rewrite Z.shiftr_spec by lia. replace (i - n + n) with i by lia.
    destruct (Z_lt_le_dec i m).
    + rewrite Z.ones_spec_low by lia. apply andb_true_r.
    + destruct (Z.eq_dec c 0); [subst; rewrite Z.bits_0; reflexivity|].
      rewrite (Z.bits_above_log2 c i); [reflexivity|lia|].
      apply Z.log2_lt_pow2; [lia|]. eapply Z.lt_le_trans; [apply Hc|]. apply Z.pow_le_mono_r; lia.
Qed.

Lemma isSurrogate_spec c : 0 <= c < 2 ^ 32 -> (isSurrogate c = true <-> 0xD800 <= c <= 0xDFFF).
Proof.
  intros Hc. unfold isSurrogate, surrogateMask, firstLead.
  change 0xFFFFF800 with (Z.ones 32 - Z.ones 11). rewrite land_high by lia.
  change (2 ^ 11) with 2048. rewrite Z.eqb_eq. lia.
Qed.
Lemma isLead_spec c : 0 <= c < 2 ^ 32 -> (isLead c = true <-> 0xD800 <= c <= 0xDBFF).
Proof.
  intros Hc. unfold isLead, leadTrailMask, firstLead.
  change 0xFFFFFC00 with (Z.ones 32 - Z.ones 10). rewrite land_high by lia.
  change (2 ^ 10) with 1024. rewrite Z.eqb_eq. lia.
Qed.
Lemma isTrail_spec c : 0 <= c < 2 ^ 32 -> (isTrail c = true <-> 0xDC00 <= c <= 0xDFFF).
Proof.
  intros Hc. unfold isTrail, leadTrailMask, firstTrail.
  change 0xFFFFFC00 with (Z.ones 32 - Z.ones 10). rewrite land_high by lia.
  change (2 ^ 10) with 1024. rewrite Z.eqb_eq. lia.
Qed.

(** a single bit *)
Lemma land_pow2 c n : 0 <= n -> Z.land c (2 ^ n) = if Z.testbit c n then 2 ^ n else 0.
Proof.
  intros Hn. apply Z.bits_inj'. intros i Hi. rewrite Z.land_spec, Z.pow2_bits_eqb by lia.
  destruct (Z.eqb_spec n i) as [->|N].
  - rewrite andb_true_r. destruct (Z.testbit c i) eqn:E; [rewrite Z.pow2_bits_true by lia; auto|rewrite Z.bits_0; auto].
  - rewrite andb_false_r. destruct (Z.testbit c n); [rewrite Z.pow2_bits_false by lia|rewrite Z.bits_0]; auto.
Qed.

Lemma testbit_div c n : 0 <= n -> Z.testbit c n = Z.odd (c / 2 ^ n).
Proof. intros. rewrite Z.testbit_odd, Z.shiftr_div_pow2 by auto. reflexivity. Qed.

Lemma isSurrogateLead_spec c : isSurrogate c = true -> 0 <= c < 2 ^ 32 ->
  isSurrogateLead c = isLead c /\ isSurrogateTrail c = isTrail c.
Proof.
  intros H Hc. apply isSurrogate_spec in H; auto.
  unfold isSurrogateLead, isSurrogateTrail. change 0x400 with (2 ^ 10). rewrite land_pow2 by lia.
  rewrite testbit_div by lia. change (2 ^ 10) with 1024.
  destruct (Z_lt_le_dec c 0xDC00).
  - replace (c / 1024) with 54 by lia. simpl.
    destruct (isLead_spec c Hc) as [_ L]. rewrite L by lia. split; auto.
    destruct (isTrail c) eqn:E; auto. apply isTrail_spec in E; auto. lia.
  - replace (c / 1024) with 55 by lia. simpl.
    destruct (isTrail_spec c Hc) as [_ L]. rewrite L by lia. split; auto.
    destruct (isLead c) eqn:E; auto. apply isLead_spec in E; auto. lia.
Qed.

(** ** Surrogate pairs *)

Lemma shift10 x : Z.shiftl x 10 = x * 1024. Proof. rewrite Z.shiftl_mul_pow2 by lia. reflexivity. Qed.
Lemma shiftr10 x : Z.shiftr x 10 = x / 1024. Proof. rewrite Z.shiftr_div_pow2 by lia. reflexivity. Qed.
Lemma mask10 x : Z.land x trailMask = x mod 1024.
Proof. change trailMask with (Z.ones 10). rewrite Z.land_ones by lia. reflexivity. Qed.

Lemma fromChar_eq ch : surrogatesFromChar ch = (ch / 1024 + 0xD7C0, ch mod 1024 + 0xDC00).
Proof. unfold surrogatesFromChar, leadShift. rewrite shiftr10, mask10. reflexivity. Qed.
Lemma toChar_eq l t : charFromSurrogates l t = l * 1024 + t - 56613888.
Proof. unfold charFromSurrogates, leadShift. rewrite shift10. reflexivity. Qed.

Lemma surrogates_roundtrip ch : 0x10000 <= ch <= 0x10FFFF ->
  exists l t, surrogatesFromChar ch = (l, t) /\ isLead l = true /\ isTrail t = true /\
              charFromSurrogates l t = ch.
Proof.
  intros H. rewrite fromChar_eq. eexists _, _. split; [reflexivity|].
  rewrite toChar_eq. rewrite isLead_spec, isTrail_spec by lia. lia.
Qed.

Lemma surrogates_roundtrip2 l t : 0xD800 <= l <= 0xDBFF -> 0xDC00 <= t <= 0xDFFF ->
  0x10000 <= charFromSurrogates l t <= 0x10FFFF /\
  surrogatesFromChar (charFromSurrogates l t) = (l, t).
Proof.
  intros Hl Ht. rewrite toChar_eq, fromChar_eq. split; [lia|]. f_equal; lia.
Qed.

(** ** Noncharacters *)

Lemma land_fffe c : Z.land c 0xfffe = (c mod 0x10000) / 2 * 2.
Proof.
  replace (c mod 0x10000) with (Z.land c (Z.ones 16)) by (rewrite Z.land_ones by lia; reflexivity).
  replace 0xfffe with (Z.land (Z.ones 16) (Z.ones 16 - Z.ones 1)) at 1 by reflexivity.
  rewrite Z.land_assoc. rewrite (land_high (Z.land c (Z.ones 16)) 16 1); [reflexivity|lia|].
  rewrite Z.land_ones by lia. lia.
Qed.

Lemma nonchar_spec c : isUnicodeNoncharacter c = true <->
  0xFDD0 <= c <= 0xFDEF \/ exists plane, 0 <= plane <= 16 /\ (c = plane * 0x10000 + 0xFFFE \/ c = plane * 0x10000 + 0xFFFF).
Proof.
  unfold isUnicodeNoncharacter. rewrite land_fffe. split.
  - intros H. destruct (c <=? 0xfdef) eqn:E; [left; lia|right]. exists (c / 0x10000). lia.
  - intros [H|(p & H & [->| ->])]; lia.
Qed.

(** ** arithmeticShift *)

(** the two's complement value of an [f]-bit field *)
Definition signed (f x : Z) : Z := if x <? 2 ^ (f - 1) then x else x - 2 ^ f.

Lemma arithmeticShift_spec w f v : 1 <= f <= w -> 0 <= v < 2 ^ w ->
  arithmeticShift v w f = Ok (signed f (v / 2 ^ (w - f))).
Proof.
  intros Hf Hv. unfold arithmeticShift.
  destruct ((w - 1 <? 0) || (w - f <? 0)) eqn:E; [lia|].
  rewrite Z.shiftr_div_pow2, !Z.shiftl_mul_pow2, !Z.mul_1_l by lia.
  rewrite land_pow2 by lia. rewrite testbit_div by lia.
  assert (P : 2 ^ w = 2 ^ (w - 1) * 2) by (replace w with (w - 1 + 1) at 1 by lia; rewrite Z.pow_add_r by lia; reflexivity).
  assert (Q : 2 ^ (w - 1) = 2 ^ (w - f) * 2 ^ (f - 1)) by (rewrite <- Z.pow_add_r by lia; f_equal; lia).
  pose proof (Z.pow_pos_nonneg 2 (w - 1) ltac:(lia) ltac:(lia)) as P1.
  pose proof (Z.pow_pos_nonneg 2 (w - f) ltac:(lia) ltac:(lia)) as P2.
  pose proof (Z.pow_pos_nonneg 2 (f - 1) ltac:(lia) ltac:(lia)) as P3.
  unfold signed.
  destruct (Z_lt_le_dec v (2 ^ (w - 1))) as [L|G].
  - rewrite Z.div_small by lia. cbn [Z.odd negb Z.eqb].
    assert (v / 2 ^ (w - f) < 2 ^ (f - 1)) by (apply Z.div_lt_upper_bound; lia).
    apply Z.ltb_lt in H. rewrite H. reflexivity.
  - assert (D : v / 2 ^ (w - 1) = 1) by (symmetry; apply (Z.div_unique v (2 ^ (w - 1)) 1 (v - 2 ^ (w - 1))); lia). rewrite D. cbn [Z.odd].
    destruct (2 ^ (w - 1) =? 0) eqn:E0; [apply Z.eqb_eq in E0; lia|]. cbn [negb].
    destruct (f <? 0) eqn:E3; [apply Z.ltb_lt in E3; lia|].
    assert (2 ^ (f - 1) <= v / 2 ^ (w - f)) by (apply Z.div_le_lower_bound; lia).
    apply Z.ltb_ge in H. rewrite H. reflexivity.
Qed.

Lemma signed_range f x : 1 <= f -> 0 <= x < 2 ^ f -> - 2 ^ (f - 1) <= signed f x < 2 ^ (f - 1).
Proof.
  intros Hf Hx. unfold signed.
  assert (2 ^ f = 2 ^ (f - 1) * 2) by (replace f with (f - 1 + 1) at 1 by lia; rewrite Z.pow_add_r by lia; reflexivity).
  destruct (x <? 2 ^ (f - 1)) eqn:E; [apply Z.ltb_lt in E|apply Z.ltb_ge in E]; lia.
Qed.

(** the word with the field holding [d] on top of [low] *)
Definition encodeTop (w f d low : Z) : Z := (d mod 2 ^ f) * 2 ^ (w - f) + low.

Lemma arithmeticShift_decodes w f d low : 1 <= f <= w -> - 2 ^ (f - 1) <= d < 2 ^ (f - 1) ->
  0 <= low < 2 ^ (w - f) -> arithmeticShift (encodeTop w f d low) w f = Ok d.
Proof.
  intros Hf Hd Hl. unfold encodeTop.
  assert (P : 2 ^ f = 2 ^ (f - 1) * 2) by (replace f with (f - 1 + 1) at 1 by lia; rewrite Z.pow_add_r by lia; reflexivity).
  pose proof (Z.pow_pos_nonneg 2 (f - 1) ltac:(lia) ltac:(lia)) as P3.
  pose proof (Z.mod_pos_bound d (2 ^ f) ltac:(lia)) as M.
  assert (Q : 2 ^ w = 2 ^ f * 2 ^ (w - f)) by (rewrite <- Z.pow_add_r by lia; f_equal; lia).
  rewrite arithmeticShift_spec by (auto; nia).
  rewrite Z.div_add_l, (Z.div_small low) by lia. rewrite Z.add_0_r. f_equal. unfold signed.
  destruct (Z_lt_le_dec d 0) as [N|N].
  - assert (E : d mod 2 ^ f = d + 2 ^ f) by (symmetry; apply (Z.mod_unique d (2 ^ f) (-1)); lia).
    rewrite E. destruct (_ <? _) eqn:E2; [apply Z.ltb_lt in E2|]; lia.
  - rewrite Z.mod_small by lia. destruct (_ <? _) eqn:E2; [reflexivity|apply Z.ltb_ge in E2; lia].
Qed.

(** ** highBit *)

Lemma highBit_step_spec v b k V : 0 <= k -> 0 < v < 2 ^ (2 * k) -> 0 < V -> Z.log2 V = Z.log2 v + b ->
  0 < k ->
  let (v', b') := highBit_step (v, b) k in 0 < v' < 2 ^ k /\ Z.log2 V = Z.log2 v' + b'.
Proof.
  intros Hk Hv HV HL Hk0. unfold highBit_step. rewrite Z.shiftl_mul_pow2, Z.mul_1_l by lia.
  destruct (v >=? 2 ^ k) eqn:E.
  - apply Z.geb_le in E. rewrite Z.shiftr_div_pow2 by lia.
    pose proof (Z.pow_pos_nonneg 2 k ltac:(lia) ltac:(lia)) as P.
    assert (2 ^ (2 * k) = 2 ^ k * 2 ^ k) by (rewrite <- Z.pow_add_r by lia; f_equal; lia).
    assert (0 < v / 2 ^ k) by (apply Z.div_str_pos; lia).
    assert (v / 2 ^ k < 2 ^ k) by (apply Z.div_lt_upper_bound; lia).
    split; [lia|]. rewrite HL. rewrite <- Z.shiftr_div_pow2 by lia. rewrite Z.log2_shiftr by lia.
    assert (k <= Z.log2 v) by (apply Z.log2_le_pow2; lia). lia.
  - assert (v < 2 ^ k). { destruct (Z_lt_le_dec v (2 ^ k)); auto. apply Z.geb_le in l. congruence. }
    split; [lia|auto].
Qed.

Lemma highBit_spec v : 0 < v < 2 ^ 64 -> highBit v = Some (Z.log2 v).
Proof.
  intros Hv. unfold highBit. destruct (v =? 0) eqn:E; [apply Z.eqb_eq in E; lia|]. f_equal.
  enough (G : forall V b, 0 < V -> Z.log2 V = Z.log2 v + b ->
            snd (fold_left highBit_step [32; 16; 8; 4; 2; 1] (v, b)) = Z.log2 V) by (apply G; lia).
  clear E. intros V b HV HL. cbn [fold_left].
  assert (H0 : 0 < v < 2 ^ (2 * 32)) by (change (2 * 32) with 64; lia).
  pose proof (highBit_step_spec v b 32 V) as S. destruct (highBit_step (v, b) 32) as [v1 b1].
  destruct S as [H1 L1]; auto; try lia. change 32 with (2 * 16) in H1.
  pose proof (highBit_step_spec v1 b1 16 V) as S. destruct (highBit_step (v1, b1) 16) as [v2 b2].
  destruct S as [H2 L2]; auto; try lia. change 16 with (2 * 8) in H2.
  pose proof (highBit_step_spec v2 b2 8 V) as S. destruct (highBit_step (v2, b2) 8) as [v3 b3].
  destruct S as [H3 L3]; auto; try lia. change 8 with (2 * 4) in H3.
  pose proof (highBit_step_spec v3 b3 4 V) as S. destruct (highBit_step (v3, b3) 4) as [v4 b4].
  destruct S as [H4 L4]; auto; try lia. change 4 with (2 * 2) in H4.
  pose proof (highBit_step_spec v4 b4 2 V) as S. destruct (highBit_step (v4, b4) 2) as [v5 b5].
  destruct S as [H5 L5]; auto; try lia. change 2 with (2 * 1) in H5 at 2.
  pose proof (highBit_step_spec v5 b5 1 V) as S. destruct (highBit_step (v5, b5) 1) as [v6 b6].
  destruct S as [H6 L6]; auto; try lia. simpl snd.
  assert (v6 = 1) by (change (2 ^ 1) with 2 in H6; lia). subst v6. simpl in L6. lia.
Qed.
