(** * Normalizer2: what the methods return for the stored data. *)
From Coq Require Import ZArith List Bool Lia ZifyBool.
From Verif Require Import Py Arr SpecText Utilities UtilitiesFacts CPTrie Normalizer2.
Import ListNotations.
Open Scope Z_scope.
Ltac Zify.zify_post_hook ::= Z.to_euclidean_division_equations.

Lemma chr_Ok c : 0 <= c <= 0x10FFFF -> py_chr c = Ok [c].
Proof. intros H. unfold py_chr. replace ((0 <=? c) && (c <=? 0x10FFFF)) with true by lia. reflexivity. Qed.

(** ** Mapping strings *)
Lemma utf16_len c : zlen (utf16 c) = if c <? 0x10000 then 1 else 2.
Proof. unfold utf16. destruct (c <? 0x10000); reflexivity. Qed.
Lemma utf16s_app a b : utf16s (a ++ b) = utf16s a ++ utf16s b.
Proof. apply flat_map_app. Qed.

Lemma stringLoop_ok N text : forall i, Forall scalar text -> stored (extraData N) i (utf16s text) ->
  stringLoop N (length (utf16s text)) i 0 = Ok text.
Proof.
  induction text as [|c r IH]; intros i F S; [reflexivity|].
  inversion F as [|? ? Hc Fr]; subst. cbn [utf16s flat_map] in *. fold (utf16s r) in *.
  apply stored_app in S as [S1 S2]. specialize (IH _ Fr S2). rewrite app_length. unfold utf16 in *. destruct (c <? 0x10000) eqn:E.
  - cbn [length Nat.add stringLoop]. rewrite (stored_hd _ _ _ _ S1). cbn [bind negb Z.eqb].
    replace (isLead c) with false.
    2:{ symmetry. apply not_true_iff_false. rewrite isLead_spec by (unfold scalar in Hc; lia). unfold scalar in Hc. lia. }
    rewrite chr_Ok by (unfold scalar in Hc; lia). cbn [bind]. change (zlen [c]) with 1 in IH. rewrite IH. reflexivity.
  - unfold scalar in Hc. cbn [length Nat.add stringLoop]. pose proof (S1 0%nat ltac:(cbn; lia)) as A. pose proof (S1 1%nat ltac:(cbn; lia)) as B.
    cbn [nth] in A, B. change (Z.of_nat 0) with 0 in A. change (Z.of_nat 1) with 1 in B. rewrite Z.add_0_r in A.
    rewrite A. cbn [bind negb Z.eqb]. replace (isLead (0xD800 + (c - 0x10000) / 0x400)) with true.
    2:{ symmetry. apply isLead_spec; lia. }
    rewrite B. cbn [bind]. replace (negb (_ =? 0)) with true by lia.
    rewrite toChar_eq. replace (_ - 56613888) with c by lia. rewrite chr_Ok by lia. cbn [bind].
    change (zlen [_; _]) with 2 in IH. replace (i + 1 + 1) with (i + 2) by lia. rewrite IH. reflexivity.
Qed.
Lemma stringFromData_ok N i text : Forall scalar text -> stored (extraData N) i (utf16s text) ->
  stringFromData N i (zlen (utf16s text)) = Ok text.
Proof. intros F S. unfold stringFromData, zlen. rewrite Nat2Z.id. apply stringLoop_ok; auto. Qed.

(** ** Hangul *)
Definition jamo (l v t : Z) : list Z := (0x1100 + l) :: (0x1161 + v) :: (if t =? 0 then [] else [0x11A7 + t]).
Definition syllable (l v t : Z) : Z := 0xAC00 + (l * 21 + v) * 28 + t.
Definition jamo_ok (l v t : Z) : Prop := 0 <= l < 19 /\ 0 <= v < 21 /\ 0 <= t < 28.
Lemma syllable_parts c : 0xAC00 <= c <= 0xD7A3 -> exists l v t, jamo_ok l v t /\ c = syllable l v t.
Proof.
  intros H. exists ((c - 0xAC00) / 588), ((c - 0xAC00) / 28 mod 21), ((c - 0xAC00) mod 28). unfold jamo_ok, syllable. lia.
Qed.
Lemma hangul_ok l v t : jamo_ok l v t -> hangulDecomposition (syllable l v t) = Ok (jamo l v t).
Proof.
  intros (Hl & Hv & Ht). unfold hangulDecomposition, syllable, HANGUL_BASE, JAMO_T_COUNT, JAMO_V_COUNT, JAMO_L_BASE, JAMO_V_BASE, JAMO_T_BASE.
  replace (44032 + (l * 21 + v) * 28 + t - 44032) with ((l * 21 + v) * 28 + t) by lia.
  replace (((l * 21 + v) * 28 + t) mod 28) with t by (apply (Z.mod_unique _ _ (l * 21 + v)); lia).
  replace (((l * 21 + v) * 28 + t) / 28) with (l * 21 + v) by (apply (Z.div_unique _ _ _ t); lia).
  replace ((l * 21 + v) / 21) with l by (apply (Z.div_unique _ _ _ v); lia). replace ((l * 21 + v) mod 21) with v by (apply (Z.mod_unique _ _ l); lia).
  rewrite !chr_Ok by lia. cbn [bind]. unfold jamo. destruct (t =? 0); reflexivity.
Qed.
Lemma rawHangul_ok l v t : jamo_ok l v t ->
  rawHangulDecomposition (syllable l v t) = Ok (if t =? 0 then [0x1100 + l; 0x1161 + v] else [syllable l v 0; 0x11A7 + t]).
Proof.
  intros (Hl & Hv & Ht). unfold rawHangulDecomposition, syllable, HANGUL_BASE, JAMO_T_COUNT, JAMO_V_COUNT, JAMO_L_BASE, JAMO_V_BASE, JAMO_T_BASE.
  replace (44032 + (l * 21 + v) * 28 + t - 44032) with ((l * 21 + v) * 28 + t) by lia.
  replace (((l * 21 + v) * 28 + t) mod 28) with t by (apply (Z.mod_unique _ _ (l * 21 + v)); lia).
  replace (((l * 21 + v) * 28 + t) / 28) with (l * 21 + v) by (apply (Z.div_unique _ _ _ t); lia).
  replace ((l * 21 + v) / 21) with l by (apply (Z.div_unique _ _ _ v); lia). replace ((l * 21 + v) mod 21) with v by (apply (Z.mod_unique _ _ l); lia).
  rewrite !chr_Ok by lia. cbn [bind]. destruct (t =? 0); [reflexivity|]. cbn [app]. do 2 f_equal; lia.
Qed.
Lemma jamo_inj l v t l' v' t' : jamo_ok l v t -> jamo_ok l' v' t' -> jamo l v t = jamo l' v' t' -> l = l' /\ v = v' /\ t = t'.
Proof.
  unfold jamo, jamo_ok. intros H H' E. pose proof (f_equal (fun x => nth 0 x 0) E) as E0. pose proof (f_equal (fun x => nth 1 x 0) E) as E1. pose proof (f_equal (fun x => nth 2 x 0) E) as E2.
  cbn [nth] in E0, E1, E2. destruct (t =? 0) eqn:A, (t' =? 0) eqn:B; cbn [nth] in E2; lia.
Qed.

(** ** Entries of the extra data *)
Inductive raw_form := NoRaw | RawText (t : list Z) | RawFirst (r : Z).
Record entry := mkEntry { en_text : list Z; en_raw : raw_form; en_ccc : option Z; en_high : Z; en_b5 : bool }.
Definition b2z (b : bool) : Z := if b then 1 else 0.
Definition has_raw (e : entry) : bool := match en_raw e with NoRaw => false | _ => true end.
Definition has_ccc (e : entry) : bool := match en_ccc e with None => false | _ => true end.
Definition firstUnitOf (e : entry) : Z :=
  zlen (utf16s (en_text e)) + 0x20 * b2z (en_b5 e) + 0x40 * b2z (has_raw e) + 0x80 * b2z (has_ccc e) + 0x100 * en_high e.
Definition raw_words (e : entry) : list Z :=
  match en_raw e with NoRaw => [] | RawText t => utf16s t ++ [zlen (utf16s t)] | RawFirst r => [r] end.
Definition ccc_words (e : entry) : list Z := match en_ccc e with None => [] | Some w => [w] end.
Definition entry_words (e : entry) : list Z := raw_words e ++ ccc_words e ++ [firstUnitOf e] ++ utf16s (en_text e).
Definition head_len (e : entry) : Z := zlen (raw_words e) + zlen (ccc_words e).
Definition entry_ok (e : entry) : Prop :=
  Forall scalar (en_text e) /\ zlen (utf16s (en_text e)) <= 31 /\
  match en_raw e with
  | NoRaw => True
  | RawText t => Forall scalar t /\ zlen (utf16s t) <= 31
  | RawFirst r => 31 < r <= 0xFFFF /\ exists p rest, en_text e = p ++ rest /\ zlen (utf16s p) = 2
  end.
(** the entry whose first unit is at [ix] *)
Definition entry_at (N : norm2) (ix : Z) (e : entry) : Prop := stored (extraData N) (ix - head_len e) (entry_words e).
(** [raw_is e r]: the raw mapping of the entry is [r] *)
Definition raw_is (e : entry) (r : list Z) : Prop :=
  match en_raw e with
  | NoRaw => r = en_text e
  | RawText t => r = t
  | RawFirst x => exists p rest, en_text e = p ++ rest /\ zlen (utf16s p) = 2 /\ r = x :: rest
  end.
(** an empty raw mapping is reported as none *)
Definition nonempty (r : list Z) : option (list Z) := match r with [] => None | _ => Some r end.

Lemma entry_parts N ix e : entry_at N ix e ->
  stored (extraData N) (ix - head_len e) (raw_words e) /\ aget (extraData N) ix = Ok (firstUnitOf e) /\ stored (extraData N) (ix + 1) (utf16s (en_text e)).
Proof.
  unfold entry_at, entry_words, head_len. intros S. apply stored_app in S as [S1 S]. apply stored_app in S as [_ S]. apply stored_app in S as [S2 S3].
  split; [exact S1|]. apply stored_hd in S2. change (zlen [firstUnitOf e]) with 1 in S3. split.
  - rewrite <- S2. f_equal. lia.
  - replace (ix + 1) with (ix - (zlen (raw_words e) + zlen (ccc_words e)) + zlen (raw_words e) + zlen (ccc_words e) + 1) by lia. exact S3.
Qed.

Lemma first_fields e : zlen (utf16s (en_text e)) <= 31 ->
  Z.land (firstUnitOf e) 31 = zlen (utf16s (en_text e)) /\
  (Z.land (firstUnitOf e) 64 =? 0) = negb (has_raw e) /\ Z.land (Z.shiftr (firstUnitOf e) 7) 1 = b2z (has_ccc e).
Proof.
  intros L. pose proof (zlen_nonneg (utf16s (en_text e))) as P. unfold firstUnitOf. set (n := zlen _) in *. clearbody n.
  assert (B : forall b, 0 <= b2z b <= 1) by (intros []; cbn; lia).
  pose proof (B (en_b5 e)) as B5. pose proof (B (has_raw e)) as B6. pose proof (B (has_ccc e)) as B7.
  split; [|split].
  - change 31 with (Z.ones 5). rewrite land_ones_mod by lia. change (2 ^ 5) with 32. lia.
  - change 64 with (2 ^ 6) at 2. rewrite land_pow2 by lia. rewrite testbit_div by lia. change (2 ^ 6) with 64.
    replace ((n + 32 * b2z (en_b5 e) + 64 * b2z (has_raw e) + 128 * b2z (has_ccc e) + 256 * en_high e) / 64)
      with (2 * (b2z (has_ccc e) + 2 * en_high e) + b2z (has_raw e)) by lia.
    rewrite Z.add_comm, Z.odd_add_mul_2. destruct (has_raw e); reflexivity.
  - change 1 with (Z.ones 1). rewrite land_ones_mod, Z.shiftr_div_pow2 by lia. change (2 ^ 7) with 128. change (2 ^ 1) with 2.
    replace ((n + 32 * b2z (en_b5 e) + 64 * b2z (has_raw e) + 128 * b2z (has_ccc e) + 256 * en_high e) / 128)
      with (b2z (has_ccc e) + 2 * en_high e) by lia. lia.
Qed.

(** the value of a character whose mapping is at [ix]; the low bit is ICU's composition boundary flag *)
Definition mapping_value (N : norm2) (v ix : Z) : Prop :=
  v / 2 = ix /\ minYesNo N <= v < limitNoNo N /\ v <> minYesNo N /\ v <> Z.lor (minYesNoMappingsOnly N) 1.
Definition sane (N : norm2) : Prop := limitNoNo N <= minMaybeYes N.

Lemma mappingOf_ok N v e : entry_ok e -> entry_at N (v / 2) e -> mappingOf N v = Ok (Some (en_text e)).
Proof.
  intros (F & L & _) S. apply entry_parts in S as (_ & A & T). unfold mappingOf, getMappingIndex, OFFSET_SHIFT.
  rewrite Z.shiftr_div_pow2 by lia. change (2 ^ 1) with 2. rewrite A. cbn [bind]. unfold MAPPING_LENGTH_MASK.
  destruct (first_fields e L) as (-> & _). rewrite stringFromData_ok by auto. reflexivity.
Qed.
Lemma hangul_not N v ix : mapping_value N v ix -> isHangulLV N v || isHangulLVT N v = false.
Proof. intros (_ & _ & A & B). unfold isHangulLV, isHangulLVT, hangulLVT, HAS_COMP_BOUNDARY_AFTER. set (k := Z.lor _ _) in *. lia. Qed.

Theorem mapping_full N c v ix e : sane N -> minDecompNoCP N <= c -> getNorm16 N c = Ok v -> mapping_value N v ix -> entry_ok e -> entry_at N ix e ->
  getDecomposition N c = Ok (Some (en_text e)).
Proof.
  intros HS Hc G M K E. unfold getDecomposition. rewrite G. cbn [bind].
  pose proof (hangul_not N v ix M) as HH. destruct M as (<- & R & _). unfold sane in HS.
  replace ((c <? minDecompNoCP N) || isMaybeOrNonZeroCC N v) with false by (unfold isMaybeOrNonZeroCC; lia).
  replace (isDecompNoAlgorithmic N v) with false by (unfold isDecompNoAlgorithmic; lia). cbn [bind].
  replace (v <? minYesNo N) with false by lia. rewrite HH. apply mappingOf_ok; auto.
Qed.

Theorem mapping_raw N c v ix e r : sane N -> minDecompNoCP N <= c -> getNorm16 N c = Ok v -> mapping_value N v ix -> entry_ok e -> entry_at N ix e ->
  raw_is e r -> getRawDecomposition N c = Ok (nonempty r).
Proof.
  intros HS Hc G M K E R. unfold getRawDecomposition. rewrite G. cbn [bind].
  pose proof (hangul_not N v ix M) as HH. destruct M as (<- & Rg & _). unfold sane in HS.
  replace ((c <? minDecompNoCP N) || isDecompYes N v) with false by (unfold isDecompYes; lia). rewrite HH.
  replace (isDecompNoAlgorithmic N v) with false by (unfold isDecompNoAlgorithmic; lia).
  unfold getMappingIndex, OFFSET_SHIFT. rewrite Z.shiftr_div_pow2 by lia. change (2 ^ 1) with 2.
  destruct (entry_parts _ _ _ E) as (Sr & A & T). rewrite A. cbn [bind].
  destruct K as (F & L & KR). destruct (first_fields e L) as (F1 & F2 & F3).
  unfold MAPPING_LENGTH_MASK, MAPPING_HAS_RAW_MAPPING. rewrite F1, F2, F3. unfold has_raw, raw_is, raw_words, head_len in *.
  assert (CC : zlen (ccc_words e) = b2z (has_ccc e)) by (unfold ccc_words, has_ccc; destruct (en_ccc e); reflexivity).
  destruct (en_raw e) as [|t|x] eqn:Q.
  - cbn [negb bind]. subst r. rewrite stringFromData_ok by auto. destruct (en_text e) as [|a rest]; [reflexivity|].
    cbn [nonempty]. replace (zlen (utf16s (a :: rest)) =? 0) with false; [reflexivity|].
    cbn [utf16s flat_map]. rewrite zlen_app, utf16_len. pose proof (zlen_nonneg (flat_map utf16 rest)). destruct (a <? 0x10000); lia.
  - destruct KR as [Ft Lt]. subst r. cbn [negb bind]. apply stored_app in Sr as [S1 S2]. apply stored_hd in S2.
    unfold raw_words in S1, S2. rewrite Q in S1, S2. rewrite zlen_app in S1, S2. change (zlen [zlen (utf16s t)]) with 1 in S1, S2. rewrite CC in S1, S2.
    replace (v / 2 - (zlen (utf16s t) + 1 + b2z (has_ccc e)) + zlen (utf16s t)) with (v / 2 - b2z (has_ccc e) - 1) in S2 by lia.
    rewrite S2. cbn [bind]. replace (zlen (utf16s t) <=? 31) with true by lia. cbn [bind].
    replace (v / 2 - (zlen (utf16s t) + 1 + b2z (has_ccc e))) with (v / 2 - b2z (has_ccc e) - 1 - zlen (utf16s t)) in S1 by lia.
    rewrite stringFromData_ok by auto. destruct t as [|a rest]; [reflexivity|].
    cbn [nonempty]. replace (zlen (utf16s (a :: rest)) =? 0) with false; [reflexivity|].
    cbn [utf16s flat_map]. rewrite zlen_app, utf16_len. pose proof (zlen_nonneg (flat_map utf16 rest)). destruct (a <? 0x10000); lia.
  - destruct KR as [Hx _]. destruct R as (p & rest & Et & Lp & ->). cbn [negb bind]. apply stored_hd in Sr.
    unfold raw_words in Sr. rewrite Q in Sr. change (zlen [x]) with 1 in Sr. rewrite CC in Sr.
    replace (v / 2 - (1 + b2z (has_ccc e))) with (v / 2 - b2z (has_ccc e) - 1) in Sr by lia.
    rewrite Sr. cbn [bind]. replace (x <=? 31) with false by lia. rewrite chr_Ok by lia. cbn [bind].
    rewrite Et, utf16s_app in T |- *. apply stored_app in T as [_ T]. rewrite Lp in T. rewrite zlen_app, Lp.
    replace (2 + zlen (utf16s rest) - 2) with (zlen (utf16s rest)) by lia. replace (v / 2 + 1 + 2) with (v / 2 + 3) in T by lia.
    rewrite Et in F. apply Forall_app in F as [_ F]. rewrite stringFromData_ok by auto. reflexivity.
Qed.

(** ** Algorithmic one character mappings *)
Definition delta_value (N : norm2) (v delta : Z) : Prop :=
  exists low, 0 <= low < 8 /\ v = minMaybeYes N - 8 * 65 + 8 * delta + low /\ -64 <= delta <= 64.
Definition aligned (N : norm2) : Prop := minMaybeYes N mod 8 = 0 /\ centerNoNoDelta N = minMaybeYes N / 8 - 65.
Lemma algorithmic N c v delta : aligned N -> delta_value N v delta -> mapAlgorithmic N c v = c + delta.
Proof.
  intros [A B] (low & Hl & -> & Hd). unfold mapAlgorithmic, DELTA_SHIFT. rewrite B, Z.shiftr_div_pow2 by lia. change (2 ^ 3) with 8. lia.
Qed.
Theorem algorithmic_raw N c v delta : aligned N -> sane N -> minYesNo N <= limitNoNo N -> minDecompNoCP N <= c -> getNorm16 N c = Ok v -> delta_value N v delta ->
  limitNoNo N <= v < minMaybeYes N -> v <> minYesNo N -> v <> Z.lor (minYesNoMappingsOnly N) 1 -> 0 <= c + delta <= 0x10FFFF ->
  getRawDecomposition N c = Ok (Some [c + delta]).
Proof.
  intros HA HS HM Hc G D Hv NV NT Hr. unfold getRawDecomposition. rewrite G. cbn [bind]. unfold sane in HS.
  replace ((c <? minDecompNoCP N) || isDecompYes N v) with false by (unfold isDecompYes; lia).
  replace (isHangulLV N v || isHangulLVT N v) with false
    by (unfold isHangulLV, isHangulLVT, hangulLVT, HAS_COMP_BOUNDARY_AFTER; set (k := Z.lor _ _) in *; lia).
  replace (isDecompNoAlgorithmic N v) with true by (unfold isDecompNoAlgorithmic; lia).
  rewrite (algorithmic N c v delta HA D), chr_Ok by exact Hr. reflexivity.
Qed.
(** what remains once the character is mapped *)
Definition final (N : norm2) (c v : Z) (dflt : option (list Z)) : res (option (list Z)) :=
  if v <? minYesNo N then Ok dflt
  else if isHangulLV N v || isHangulLVT N v then let* s := hangulDecomposition c in Ok (Some s)
  else mappingOf N v.
Theorem algorithmic_full N c v delta w : aligned N -> sane N -> minDecompNoCP N <= c -> getNorm16 N c = Ok v -> delta_value N v delta ->
  limitNoNo N <= v < minMaybeYes N -> 0 <= c + delta <= 0x10FFFF -> getRawNorm16 N (c + delta) = Ok w ->
  getDecomposition N c = final N (c + delta) w (Some [c + delta]).
Proof.
  intros HA HS Hc G D Hv Hr Gw. unfold getDecomposition. rewrite G. cbn [bind]. unfold sane in HS.
  replace ((c <? minDecompNoCP N) || isMaybeOrNonZeroCC N v) with false by (unfold isMaybeOrNonZeroCC; lia).
  replace (isDecompNoAlgorithmic N v) with true by (unfold isDecompNoAlgorithmic; lia).
  rewrite (algorithmic N c v delta HA D), chr_Ok by exact Hr. cbn [bind]. rewrite Gw. reflexivity.
Qed.

(** ** Characters without a decomposition *)
Theorem none_small N c v : getNorm16 N c = Ok v -> c < minDecompNoCP N -> getDecomposition N c = Ok None /\ getRawDecomposition N c = Ok None.
Proof.
  intros G H. unfold getDecomposition, getRawDecomposition. rewrite G. cbn [bind]. replace (c <? minDecompNoCP N) with true by lia. split; reflexivity.
Qed.
Theorem none_yes N c v : sane N -> minYesNo N <= limitNoNo N -> getNorm16 N c = Ok v -> v < minYesNo N \/ minMaybeYes N <= v ->
  getDecomposition N c = Ok None /\ getRawDecomposition N c = Ok None.
Proof.
  intros HS HL G H. unfold getDecomposition, getRawDecomposition. rewrite G. cbn [bind]. unfold sane in HS.
  replace (isDecompYes N v) with true by (unfold isDecompYes; lia). rewrite orb_true_r. split; [|reflexivity].
  destruct ((c <? minDecompNoCP N) || isMaybeOrNonZeroCC N v) eqn:E; [reflexivity|].
  replace (isDecompNoAlgorithmic N v) with false by (unfold isDecompNoAlgorithmic, isMaybeOrNonZeroCC in *; lia). cbn [bind].
  replace (v <? minYesNo N) with true by (unfold isMaybeOrNonZeroCC in *; lia). reflexivity.
Qed.

Theorem none_lead N c : 0xD800 <= c <= 0xDBFF -> 1 < minYesNo N -> sane N -> minYesNo N <= limitNoNo N ->
  getDecomposition N c = Ok None /\ getRawDecomposition N c = Ok None.
Proof.
  intros Hc H1 HS HL. apply (none_yes N c 1 HS HL); [|lia]. unfold getNorm16. replace (isLead c) with true; [reflexivity|].
  symmetry. apply isLead_spec; lia.
Qed.
Theorem algorithmic_other N c v delta w : aligned N -> sane N -> minYesNo N <= limitNoNo N -> minDecompNoCP N <= c -> getNorm16 N c = Ok v -> delta_value N v delta ->
  limitNoNo N <= v < minMaybeYes N -> 0 <= c + delta <= 0x10FFFF -> ~ 0xD800 <= c + delta <= 0xDBFF -> minDecompNoCP N <= c + delta ->
  getRawNorm16 N (c + delta) = Ok w -> w < limitNoNo N ->
  getDecomposition N c = (if w <? minYesNo N then Ok (Some [c + delta]) else getDecomposition N (c + delta)).
Proof.
  intros HA HS HL Hc G D Hv Hr NL Hm Gw Lw. rewrite (algorithmic_full N c v delta w HA HS Hc G D Hv Hr Gw). unfold final.
  destruct (w <? minYesNo N) eqn:Y; [reflexivity|]. unfold getDecomposition.
  assert (G2 : getNorm16 N (c + delta) = Ok w).
  { unfold getNorm16. replace (isLead (c + delta)) with false; [exact Gw|]. symmetry. apply not_true_iff_false. rewrite isLead_spec by lia. exact NL. }
  rewrite G2. cbn [bind]. unfold sane in HS.
  replace ((c + delta <? minDecompNoCP N) || isMaybeOrNonZeroCC N w) with false by (unfold isMaybeOrNonZeroCC; lia).
  replace (isDecompNoAlgorithmic N w) with false by (unfold isDecompNoAlgorithmic; lia). cbn [bind]. rewrite Y. reflexivity.
Qed.

(** Hangul syllables by their values *)
Theorem hangul_both N l v t n : jamo_ok l v t -> minDecompNoCP N <= syllable l v t -> getNorm16 N (syllable l v t) = Ok n ->
  n = minYesNo N \/ n = Z.lor (minYesNoMappingsOnly N) 1 -> minYesNo N <= n < minMaybeYes N -> n < limitNoNo N ->
  getDecomposition N (syllable l v t) = Ok (Some (jamo l v t)) /\
  getRawDecomposition N (syllable l v t) = Ok (Some (if t =? 0 then [0x1100 + l; 0x1161 + v] else [syllable l v 0; 0x11A7 + t])).
Proof.
  intros K Hc G Hn R RL. unfold getDecomposition, getRawDecomposition. rewrite G. cbn [bind].
  replace (minDecompNoCP N <=? syllable l v t) with true in * by lia.
  replace ((syllable l v t <? minDecompNoCP N) || isMaybeOrNonZeroCC N n) with false by (unfold isMaybeOrNonZeroCC; lia).
  replace ((syllable l v t <? minDecompNoCP N) || isDecompYes N n) with false by (unfold isDecompYes; lia).
  replace (isDecompNoAlgorithmic N n) with false by (unfold isDecompNoAlgorithmic; lia). cbn [bind].
  replace (n <? minYesNo N) with false by lia.
  replace (isHangulLV N n || isHangulLVT N n) with true
    by (unfold isHangulLV, isHangulLVT, hangulLVT, HAS_COMP_BOUNDARY_AFTER; set (k := Z.lor _ _) in *; lia).
  rewrite hangul_ok, rawHangul_ok by exact K. split; reflexivity.
Qed.

(** ** The constructor *)
Lemma new_ok trie ix extra : (forall i, 8 <= i <= 18 -> exists v, aget ix i = Ok v) ->
  forall m, aget ix 13 = Ok m -> m mod 8 = 0 ->
  exists N, newNormalizer2 trie ix extra = Ok N /\ n_trie N = trie /\ aget ix 8 = Ok (minDecompNoCP N) /\ aget ix 10 = Ok (minYesNo N) /\
    aget ix 12 = Ok (limitNoNo N) /\ aget ix 14 = Ok (minYesNoMappingsOnly N) /\ minMaybeYes N = m /\ aligned N /\
    extraData N = arr_from extra ((0xfc00 - m) / 2) /\ maybeYesCompositions N = arr_to extra ((0xfc00 - m) / 2).
Proof.
  intros H m Hm A. unfold newNormalizer2, IX_MIN_DECOMP_NO_CP, IX_MIN_COMP_NO_MAYBE_CP, IX_MIN_LCCC_CP, IX_MIN_YES_NO, IX_MIN_YES_NO_MAPPINGS_ONLY,
    IX_MIN_NO_NO, IX_MIN_NO_NO_COMP_BOUNDARY_BEFORE, IX_MIN_NO_NO_COMP_NO_MAYBE_CC, IX_MIN_NO_NO_EMPTY, IX_LIMIT_NO_NO, IX_MIN_MAYBE_YES.
  destruct (H 8 ltac:(lia)) as [v8 ->]. destruct (H 9 ltac:(lia)) as [v9 ->]. destruct (H 10 ltac:(lia)) as [v10 ->].
  destruct (H 11 ltac:(lia)) as [v11 ->]. destruct (H 12 ltac:(lia)) as [v12 ->]. destruct (H 14 ltac:(lia)) as [v14 ->].
  destruct (H 15 ltac:(lia)) as [v15 ->]. destruct (H 16 ltac:(lia)) as [v16 ->]. destruct (H 17 ltac:(lia)) as [v17 ->]. destruct (H 18 ltac:(lia)) as [v18 ->].
  rewrite Hm. cbn [bind]. change 7 with (Z.ones 3). rewrite land_ones_mod by lia. change (2 ^ 3) with 8. rewrite A. cbn [negb Z.eqb].
  eexists. split; [reflexivity|]. unfold OFFSET_SHIFT, MIN_NORMAL_MAYBE_YES, aligned, DELTA_SHIFT, MAX_DELTA. rewrite !Z.shiftr_div_pow2 by lia.
  change (2 ^ 1) with 2. change (2 ^ 3) with 8. cbn. repeat split; auto. lia.
Qed.
Lemma new_unaligned trie ix extra : (forall i, 8 <= i <= 18 -> exists v, aget ix i = Ok v) ->
  forall m, aget ix 13 = Ok m -> m mod 8 <> 0 -> newNormalizer2 trie ix extra = Err AssertionError.
Proof.
  intros H m Hm A. unfold newNormalizer2, IX_MIN_DECOMP_NO_CP, IX_MIN_COMP_NO_MAYBE_CP, IX_MIN_LCCC_CP, IX_MIN_YES_NO, IX_MIN_YES_NO_MAPPINGS_ONLY,
    IX_MIN_NO_NO, IX_MIN_NO_NO_COMP_BOUNDARY_BEFORE, IX_MIN_NO_NO_COMP_NO_MAYBE_CC, IX_MIN_NO_NO_EMPTY, IX_LIMIT_NO_NO, IX_MIN_MAYBE_YES.
  destruct (H 8 ltac:(lia)) as [v8 ->]. destruct (H 9 ltac:(lia)) as [v9 ->]. destruct (H 10 ltac:(lia)) as [v10 ->].
  destruct (H 11 ltac:(lia)) as [v11 ->]. destruct (H 12 ltac:(lia)) as [v12 ->]. destruct (H 14 ltac:(lia)) as [v14 ->].
  destruct (H 15 ltac:(lia)) as [v15 ->]. destruct (H 16 ltac:(lia)) as [v16 ->]. destruct (H 17 ltac:(lia)) as [v17 ->]. destruct (H 18 ltac:(lia)) as [v18 ->].
  rewrite Hm. cbn [bind]. change 7 with (Z.ones 3). rewrite land_ones_mod by lia. change (2 ^ 3) with 8.
  replace (m mod 8 =? 0) with false by lia. reflexivity.
Qed.
(** the extra data after the compositions of the characters that combine backward *)
Lemma arr_from_stored a k i l : 0 <= k <= alen a -> 0 <= i -> k + i + zlen l <= alen a ->
  stored (arr_from a k) i l <-> stored a (k + i) l.
Proof.
  intros Hk Hi L. unfold stored, zlen in *.
  assert (E : forall j, (j < length l)%nat -> aget (arr_from a k) (i + Z.of_nat j) = aget a (k + i + Z.of_nat j)).
  { intros j Hj. unfold arr_from. assert (B : py_bound (alen a) k = k) by (unfold py_bound; destruct (k <? 0) eqn:?; lia). rewrite B.
    rewrite !aget_Ok by (cbn [alen]; lia). cbn [anth]. f_equal. f_equal. lia. }
  split; intros H j Hj; specialize (H j Hj); rewrite E in * by exact Hj; exact H.
Qed.
