(** * CharProps: the fields of the property vectors, categories and numeric values. *)
From Coq Require Import ZArith QArith Qabs List Bool Lia String ZifyBool.
From Coq.Floats Require Import SpecFloat.
From Verif Require Import Py Arr UTrie2 CPTrieBinary Runs CharProps Data_Names.
Import ListNotations.
Close Scope Q_scope.
Open Scope Z_scope.

(** ** Property vectors *)

Fixpoint bits_val (l : list bool) : Z := match l with [] => 0 | b :: r => Z.b2z b + 2 * bits_val r end.

(** the properties kept in a vector *)
Record vec := mkVec {
  v_major : Z; v_minor : Z;      (* age *)
  v_kind : Z;                    (* 0 script, 1 Common, 2 Inherited, 3 other, the last three with extensions *)
  v_script : Z;                  (* script code, or index of the extensions *)
  v_ea : Z; v_block : Z;
  v_bits : list bool;            (* the binary properties *)
  v_emoji : list bool;
  v_lb : Z; v_sb : Z; v_wb : Z; v_gcb : Z; v_dt : Z }.
Record vec_ok (V : vec) : Prop := {
  ok_major : 0 <= v_major V < 16; ok_minor : 0 <= v_minor V < 16;
  ok_kind : 0 <= v_kind V < 4; ok_script : 0 <= v_script V < 1024;
  ok_ea : 0 <= v_ea V < 8; ok_block : 0 <= v_block V < 512;
  ok_bits : List.length (v_bits V) = 32%nat; ok_emoji : List.length (v_emoji V) = 6%nat;
  ok_lb : 0 <= v_lb V < 64; ok_sb : 0 <= v_sb V < 32; ok_wb : 0 <= v_wb V < 32; ok_gcb : 0 <= v_gcb V < 32; ok_dt : 0 <= v_dt V < 32 }.
(** the three words *)
Definition word0 (V : vec) : Z := v_major V * 2 ^ 28 + v_minor V * 2 ^ 24 + v_kind V * 2 ^ 22 + v_script V / 256 * 2 ^ 20 +
  v_ea V * 2 ^ 17 + v_block V * 2 ^ 8 + v_script V mod 256.
Definition word1 (V : vec) : Z := bits_val (v_bits V).
Definition word2 (V : vec) : Z := bits_val (v_emoji V) * 2 ^ 26 + v_lb V * 2 ^ 20 + v_sb V * 2 ^ 15 + v_wb V * 2 ^ 10 +
  v_gcb V * 2 ^ 5 + v_dt V.
(** character [c] has vector [V] in [D] *)
Definition has_vec (D : chardata) (c : Z) (V : vec) : Prop := exists i, get (propsVectorTrie D) c = Ok i /\
  aget (vectors D) i = Ok (word0 V) /\ aget (vectors D) (i + 1) = Ok (word1 V) /\ aget (vectors D) (i + 2) = Ok (word2 V).

Lemma fld x hi f lo s n : 0 <= s -> 0 <= n -> x = hi * 2 ^ (s + n) + f * 2 ^ s + lo -> 0 <= lo < 2 ^ s -> 0 <= f < 2 ^ n ->
  Z.land x (Z.shiftl (Z.ones n) s) = f * 2 ^ s.
Proof.
  intros Hs Hn -> Hlo Hf. rewrite land_field by lia. f_equal.
  rewrite Z.pow_add_r by lia. replace (hi * (2 ^ s * 2 ^ n) + f * 2 ^ s + lo) with ((hi * 2 ^ n + f) * 2 ^ s + lo) by ring.
  rewrite Z.div_add_l by lia. rewrite (Z.div_small lo) by lia. rewrite Z.add_0_r, Z.add_comm, Z_mod_plus_full. apply Z.mod_small. lia.
Qed.
Lemma fld_shift x hi f lo s n : 0 <= s -> 0 <= n -> x = hi * 2 ^ (s + n) + f * 2 ^ s + lo -> 0 <= lo < 2 ^ s -> 0 <= f < 2 ^ n ->
  Z.shiftr (Z.land x (Z.shiftl (Z.ones n) s)) s = f.
Proof.
  intros Hs Hn E Hlo Hf. rewrite (fld x hi f lo s n) by auto. rewrite Z.shiftr_div_pow2 by lia. apply Z.div_mul. lia.
Qed.
Lemma bits_val_range l : 0 <= bits_val l < 2 ^ Z.of_nat (List.length l).
Proof.
  induction l as [|b r IH]; [cbn; lia|]. cbn [bits_val List.length]. rewrite Nat2Z.inj_succ, Z.pow_succ_r by lia. destruct b; cbn [Z.b2z]; lia.
Qed.
Lemma bits_val_nth l : forall k, 0 <= k -> Z.testbit (bits_val l) k = nth (Z.to_nat k) l false.
Proof.
  induction l as [|b r IH]; intros k Hk; [cbn; rewrite Z.testbit_0_l; destruct (Z.to_nat k); reflexivity|].
  cbn [bits_val]. rewrite Z.add_comm. destruct (Z.eq_dec k 0) as [->|H].
  - rewrite Z.testbit_0_r. reflexivity.
  - replace k with (Z.succ (Z.pred k)) at 1 by lia. rewrite Z.testbit_succ_r by lia.
    rewrite IH by lia. replace (Z.to_nat k) with (S (Z.to_nat (Z.pred k))) by lia. reflexivity.
Qed.
Lemma land_bit x k : 0 <= k -> negb (Z.land x (Z.shiftl 1 k) =? 0) = Z.testbit x k.
Proof.
  intros Hk. destruct (Z.testbit x k) eqn:E.
  - destruct (Z.land x (Z.shiftl 1 k) =? 0) eqn:F; [|reflexivity]. apply Z.eqb_eq in F.
    assert (Z.testbit (Z.land x (Z.shiftl 1 k)) k = false) by (rewrite F; apply Z.testbit_0_l).
    rewrite Z.land_spec, E, Z.shiftl_spec, Z.sub_diag in H by lia. discriminate.
  - apply negb_false_iff, Z.eqb_eq. apply Z.bits_inj'. intros n Hn. rewrite Z.land_spec, Z.shiftl_spec, Z.testbit_0_l by lia.
    destruct (Z.eq_dec n k) as [->|N]; [rewrite E; reflexivity|].
    destruct (Z_lt_le_dec n k); [rewrite (Z.testbit_neg_r 1) by lia; apply andb_false_r|].
    change 1 with (2 ^ 0). rewrite Z.pow2_bits_false by lia. apply andb_false_r.
Qed.

Lemma lor_low h l n : 0 <= n -> 0 <= l < 2 ^ n -> Z.lor (h * 2 ^ n) l = h * 2 ^ n + l.
Proof.
  intros Hn H. assert (D : Z.land (h * 2 ^ n) l = 0).
  { apply Z.bits_inj'. intros k Hk. rewrite Z.land_spec, Z.bits_0. rewrite <- Z.shiftl_mul_pow2, Z.shiftl_spec by lia.
    destruct (Z_lt_le_dec k n) as [Q|Q]; [rewrite Z.testbit_neg_r by lia; reflexivity|].
    replace (Z.testbit l k) with false; [apply andb_false_r|]. symmetry.
    destruct (Z.eq_dec l 0) as [->|]; [apply Z.bits_0|]. apply Z.bits_above_log2; [lia|].
    assert (Z.log2 l < n) by (apply Z.log2_lt_pow2; lia). lia. }
  rewrite Z.add_nocarry_lxor by auto. symmetry. apply Z.lxor_lor. auto.
Qed.

Section Vectors.
  Variable D : chardata.
  Variable V : vec.
  Hypothesis K : vec_ok V.
  Variable c : Z.
  Hypothesis H : has_vec D c V.
  Hypothesis Hcols : 1 <= vectorColumns D.

  Lemma props_0 : getUnicodeProperties D c 0 = Ok (word0 V).
  Proof using H Hcols.
    destruct H as (i & G & A0 & A1 & A2). unfold getUnicodeProperties. replace (0 >? vectorColumns D) with false by lia.
    rewrite G. cbn [bind]. unfold unicodePropertiesFromVecIndex. rewrite Z.add_0_r. exact A0.
  Qed.
  Lemma props_1 : getUnicodeProperties D c 1 = Ok (word1 V).
  Proof using H Hcols.
    destruct H as (i & G & A0 & A1 & A2). unfold getUnicodeProperties. replace (1 >? vectorColumns D) with false by lia.
    rewrite G. cbn [bind]. exact A1.
  Qed.
  Lemma scr : 0 <= v_script V / 256 < 4 /\ 0 <= v_script V mod 256 < 256 /\ v_script V = 256 * (v_script V / 256) + v_script V mod 256.
  Proof using K. pose proof (ok_script V K). Z.to_euclidean_division_equations. lia. Qed.

  Lemma age_ok : getAge D c = Ok [v_major V; v_minor V; 0; 0].
  Proof using K H Hcols.
    unfold getAge. rewrite props_0. cbn [bind]. f_equal. unfold ageFromProps. cbv zeta.
    pose proof scr as (S1 & S2 & _). destruct K. unfold word0, AGE_SHIFT.
    set (a := v_script V / 256) in *. set (b := v_script V mod 256) in *. clearbody a b.
    assert (E : (v_major V * 2 ^ 28 + v_minor V * 2 ^ 24 + v_kind V * 2 ^ 22 + a * 2 ^ 20 + v_ea V * 2 ^ 17 + v_block V * 2 ^ 8 + b) / 2 ^ 24
      = 16 * v_major V + v_minor V).
    { symmetry. apply Z.div_unique with (r := v_kind V * 2 ^ 22 + a * 2 ^ 20 + v_ea V * 2 ^ 17 + v_block V * 2 ^ 8 + b); [left|]; lia. }
    rewrite (Z.shiftr_div_pow2 _ 24) by lia. rewrite E, Z.shiftr_div_pow2 by lia. change 0xF with (Z.ones 4). rewrite Z.land_ones by lia. change (2 ^ 4) with 16.
    rewrite Z.mul_comm, Z.div_add_l by lia. rewrite (Z.div_small (v_minor V)) by lia. rewrite Z.add_0_r.
    rewrite (Z.add_comm (v_major V * 16)), Z_mod_plus_full, Z.mod_small by lia. reflexivity.
  Qed.

  Lemma block_ok : getBlock D c = Ok (v_block V).
  Proof using K H.
    unfold getBlock, blockFromVecIndex, field, of_char. destruct H as (i & G & A0 & A1 & A2). rewrite G. cbn [bind].
    unfold unicodePropertiesFromVecIndex. rewrite Z.add_0_r, A0. cbn [bind]. f_equal.
    pose proof scr as (S1 & S2 & _). destruct K. change BLOCK_MASK with (Z.shiftl (Z.ones 9) 8). unfold BLOCK_SHIFT, word0.
    set (a := v_script V / 256) in *. set (b := v_script V mod 256) in *. clearbody a b.
    apply fld_shift with (hi := v_major V * 2 ^ 11 + v_minor V * 2 ^ 7 + v_kind V * 2 ^ 5 + a * 2 ^ 3 + v_ea V) (lo := b); lia.
  Qed.
  Lemma ea_ok : getEastAsianWidth D c = Ok (v_ea V).
  Proof using K H.
    unfold getEastAsianWidth, eastAsianWidthFromVecIndex, field, of_char. destruct H as (i & G & A0 & A1 & A2). rewrite G. cbn [bind].
    unfold unicodePropertiesFromVecIndex. rewrite Z.add_0_r, A0. cbn [bind]. f_equal.
    pose proof scr as (S1 & S2 & _). destruct K. change EA_MASK with (Z.shiftl (Z.ones 3) 17). unfold EA_SHIFT, word0.
    set (a := v_script V / 256) in *. set (b := v_script V mod 256) in *. clearbody a b.
    apply fld_shift with (hi := v_major V * 2 ^ 8 + v_minor V * 2 ^ 4 + v_kind V * 2 ^ 2 + a) (lo := v_block V * 2 ^ 8 + b); lia.
  Qed.

  Lemma scriptX_ok : Z.land (word0 V) SCRIPT_X_MASK = v_kind V * 2 ^ 22 + v_script V / 256 * 2 ^ 20 + v_script V mod 256.
  Proof using K.
    pose proof scr as (S1 & S2 & _). destruct K. unfold word0.
    set (a := v_script V / 256) in *. set (b := v_script V mod 256) in *. clearbody a b.
    change SCRIPT_X_MASK with (Z.lor (Z.shiftl (Z.ones 4) 20) (Z.shiftl (Z.ones 8) 0)). rewrite Z.land_lor_distr_r.
    rewrite (fld _ (v_major V * 2 ^ 4 + v_minor V) (v_kind V * 4 + a) (v_ea V * 2 ^ 17 + v_block V * 2 ^ 8 + b) 20 4) by lia.
    rewrite (fld _ (v_major V * 2 ^ 20 + v_minor V * 2 ^ 16 + v_kind V * 2 ^ 14 + a * 2 ^ 12 + v_ea V * 2 ^ 9 + v_block V) b 0 0 8) by lia.
    change (2 ^ 0) with 1. rewrite Z.mul_1_r.
    replace ((v_kind V * 4 + a) * 2 ^ 20) with ((v_kind V * 4 + a) * 2 ^ 12 * 2 ^ 8) by lia. rewrite lor_low by lia. lia.
  Qed.
  Lemma merge_ok : mergeScriptCodeOrIndex (v_kind V * 2 ^ 22 + v_script V / 256 * 2 ^ 20 + v_script V mod 256) = v_script V.
  Proof using K.
    pose proof scr as (S1 & S2 & S3). destruct K. unfold mergeScriptCodeOrIndex, SCRIPT_HIGH_SHIFT.
    set (a := v_script V / 256) in *. set (b := v_script V mod 256) in *. clearbody a b.
    change SCRIPT_HIGH_MASK with (Z.shiftl (Z.ones 2) 20). change SCRIPT_LOW_MASK with (Z.shiftl (Z.ones 8) 0).
    rewrite (fld _ (v_kind V) a b 20 2) by lia.
    rewrite (fld _ (v_kind V * 2 ^ 14 + a * 2 ^ 12) b 0 0 8) by lia.
    rewrite Z.shiftr_div_pow2 by lia. change (2 ^ 20) with (2 ^ 8 * 2 ^ 12). rewrite Z.mul_assoc, Z.div_mul by lia.
    change (2 ^ 0) with 1. rewrite Z.mul_1_r, lor_low by lia. lia.
  Qed.
  Lemma script_ok : c <= 0x10FFFF -> getScript D c =
    if v_kind V =? 0 then Ok (v_script V) else if v_kind V =? 1 then Ok 0 else if v_kind V =? 2 then Ok 1 else aget (scriptExt D) (v_script V).
  Proof using K H.
    intros Hc. unfold getScript. replace (c >? 0x10FFFF) with false by lia. destruct H as (i & G & A0 & A1 & A2). rewrite G. cbn [bind].
    unfold scriptFromVecIndex, unicodePropertiesFromVecIndex. rewrite Z.add_0_r, A0. cbn [bind]. rewrite scriptX_ok, merge_ok.
    pose proof scr as (S1 & S2 & _). destruct K. unfold SCRIPT_X_WITH_COMMON, SCRIPT_X_WITH_INHERITED, SCRIPT_X_WITH_OTHER.
    set (a := v_script V / 256) in *. set (b := v_script V mod 256) in *. clearbody a b.
    replace (v_kind V * 2 ^ 22 + a * 2 ^ 20 + b <? 0x400000) with (v_kind V =? 0) by lia.
    replace (v_kind V * 2 ^ 22 + a * 2 ^ 20 + b <? 0x800000) with (v_kind V <=? 1) by lia.
    replace (v_kind V * 2 ^ 22 + a * 2 ^ 20 + b <? 0xc00000) with (v_kind V <=? 2) by lia.
    destruct (v_kind V =? 0) eqn:E0; [reflexivity|]. replace (v_kind V <=? 1) with (v_kind V =? 1) by lia.
    destruct (v_kind V =? 1) eqn:E1; [reflexivity|]. replace (v_kind V <=? 2) with (v_kind V =? 2) by lia. reflexivity.
  Qed.

  Lemma emoji_range : 0 <= bits_val (v_emoji V) < 64.
  Proof using K. pose proof (bits_val_range (v_emoji V)) as R. rewrite (ok_emoji V K) in R. exact R. Qed.
  Lemma word2_field m n s hi f lo : 0 <= s -> 0 <= n -> m = Z.shiftl (Z.ones n) s ->
    word2 V = hi * 2 ^ (s + n) + f * 2 ^ s + lo -> 0 <= lo < 2 ^ s -> 0 <= f < 2 ^ n -> of_char D (field D 2 m s) c = Ok f.
  Proof using H.
    intros Hs Hn -> E Hlo Hf. unfold field, of_char. destruct H as (i & G & A0 & A1 & A2). rewrite G. cbn [bind].
    unfold unicodePropertiesFromVecIndex. rewrite A2. cbn [bind]. f_equal. eapply fld_shift; eauto.
  Qed.
  Lemma lb_ok : getLineBreak D c = Ok (v_lb V).
  Proof using K H.
    pose proof emoji_range. destruct K. apply (word2_field _ 6 20 (bits_val (v_emoji V)) _ (v_sb V * 2 ^ 15 + v_wb V * 2 ^ 10 + v_gcb V * 2 ^ 5 + v_dt V));
      [lia|lia|reflexivity|unfold word2; lia|lia|lia].
  Qed.
  Lemma sb_ok : getSentenceBreak D c = Ok (v_sb V).
  Proof using K H.
    pose proof emoji_range. destruct K. apply (word2_field _ 5 15 (bits_val (v_emoji V) * 2 ^ 6 + v_lb V) _ (v_wb V * 2 ^ 10 + v_gcb V * 2 ^ 5 + v_dt V));
      [lia|lia|reflexivity|unfold word2; lia|lia|lia].
  Qed.
  Lemma wb_ok : getWordBreak D c = Ok (v_wb V).
  Proof using K H.
    pose proof emoji_range. destruct K. apply (word2_field _ 5 10 (bits_val (v_emoji V) * 2 ^ 11 + v_lb V * 2 ^ 5 + v_sb V) _ (v_gcb V * 2 ^ 5 + v_dt V));
      [lia|lia|reflexivity|unfold word2; lia|lia|lia].
  Qed.
  Lemma gcb_ok : getGraphemeClusterBreak D c = Ok (v_gcb V).
  Proof using K H.
    pose proof emoji_range. destruct K.
    apply (word2_field _ 5 5 (bits_val (v_emoji V) * 2 ^ 16 + v_lb V * 2 ^ 10 + v_sb V * 2 ^ 5 + v_wb V) _ (v_dt V));
      [lia|lia|reflexivity|unfold word2; lia|lia|lia].
  Qed.
  Lemma dt_ok : getDecompType D c = Ok (v_dt V).
  Proof using K H.
    pose proof emoji_range. destruct K. unfold getDecompType, decompTypeFromVecIndex, of_char. destruct H as (i & G & A0 & A1 & A2).
    rewrite G. cbn [bind]. unfold unicodePropertiesFromVecIndex. rewrite A2. cbn [bind]. f_equal.
    change DT_MASK with (Z.shiftl (Z.ones 5) 0).
    rewrite (fld _ (bits_val (v_emoji V) * 2 ^ 21 + v_lb V * 2 ^ 15 + v_sb V * 2 ^ 10 + v_wb V * 2 ^ 5 + v_gcb V) (v_dt V) 0 0 5); unfold word2; change (2 ^ (0 + 5)) with 32; change (2 ^ 0) with 1; lia.
  Qed.
  Lemma binary_ok k : 0 <= k -> getBinaryProp D c k 1 = Ok (nth (Z.to_nat k) (v_bits V) false).
  Proof using K H.
    intros Hk. unfold getBinaryProp, BINARY_1_TOP. destruct (k >=? 32) eqn:E.
    - rewrite nth_overflow; [reflexivity|]. rewrite (ok_bits V K). lia.
    - unfold of_char, binaryPropFromVecIndex, unicodePropertiesFromVecIndex, one_shl. destruct H as (i & G & A0 & A1 & A2).
      rewrite G. cbn [bind]. rewrite A1. cbn [bind]. replace (k <? 0) with false by lia. cbn [bind].
      rewrite land_bit by lia. unfold word1. rewrite bits_val_nth by lia. reflexivity.
  Qed.
  Lemma emoji_ok k : 0 <= k < 6 -> getBinaryProp D c (26 + k) 2 = Ok (nth (Z.to_nat k) (v_emoji V) false).
  Proof using K H.
    intros Hk. pose proof emoji_range. unfold getBinaryProp, BINARY_1_TOP. replace (26 + k >=? 32) with false by lia.
    unfold of_char, binaryPropFromVecIndex, unicodePropertiesFromVecIndex, one_shl. destruct H as (i & G & A0 & A1 & A2).
    rewrite G. cbn [bind]. rewrite A2. cbn [bind]. replace (26 + k <? 0) with false by lia. cbn [bind].
    rewrite land_bit by lia. rewrite <- bits_val_nth by lia. f_equal. destruct K. unfold word2.
    rewrite (Z.add_comm 26 k). rewrite <- (Z.shiftr_spec _ 26 k) by lia. rewrite Z.shiftr_div_pow2 by lia. f_equal.
    symmetry. apply Z.div_unique with (r := v_lb V * 2 ^ 20 + v_sb V * 2 ^ 15 + v_wb V * 2 ^ 10 + v_gcb V * 2 ^ 5 + v_dt V); [left|]; lia.
  Qed.
  Lemma alphabetic_ok : isAlphabetic D c = Ok (nth 8 (v_bits V) false).
  Proof using K H Hcols.
    unfold isAlphabetic. rewrite props_1. cbn [bind]. unfold bit. rewrite land_bit by (unfold ALPHABETIC; lia).
    unfold word1. rewrite bits_val_nth by (unfold ALPHABETIC; lia). reflexivity.
  Qed.
  Lemma white_ok : isUWhiteSpace D c = Ok (nth 0 (v_bits V) false).
  Proof using K H Hcols.
    unfold isUWhiteSpace. rewrite props_1. cbn [bind]. unfold bit. rewrite land_bit by (unfold WHITE_SPACE; lia).
    unfold word1. rewrite bits_val_nth by (unfold WHITE_SPACE; lia). reflexivity.
  Qed.
End Vectors.

(** ** General categories *)

Definition name_of (d : list (Z * string)) (k : Z) : string :=
  match find (fun p => fst p =? k) d with Some (_, s) => s | None => EmptyString end.
(** the two letter name of a category (GeneralCategories.py:175-206) *)
Definition cat (g : Z) : string := name_of GC_generalCategories g.
Definition is_cat (g : Z) (l : list string) : bool := existsb (String.eqb (cat g)) l.
Definition all_gc : list Z := map Z.of_nat (seq 0 30).
Lemma all_gc_spec g : 0 <= g < 30 -> In g all_gc.
Proof. intros H. unfold all_gc. apply in_map_iff. exists (Z.to_nat g). rewrite in_seq. lia. Qed.

Lemma gc_in_cat D m l c g : forallb (fun g => Bool.eqb (negb (Z.land (gcMask g) m =? 0)) (is_cat g l)) all_gc = true ->
  getGeneralCategory D c = Ok g -> 0 <= g < 30 -> gc_in D m c = Ok (is_cat g l).
Proof.
  intros F G R. unfold gc_in. rewrite G. cbn [bind]. f_equal. rewrite forallb_forall in F. specialize (F g (all_gc_spec g R)).
  apply eqb_prop in F. exact F.
Qed.
Lemma gc_notin_cat D m l c g : forallb (fun g => Bool.eqb (Z.land (gcMask g) m =? 0) (negb (is_cat g l))) all_gc = true ->
  getGeneralCategory D c = Ok g -> 0 <= g < 30 -> gc_notin D m c = Ok (negb (is_cat g l)).
Proof.
  intros F G R. unfold gc_notin. rewrite G. cbn [bind]. f_equal. rewrite forallb_forall in F. specialize (F g (all_gc_spec g R)).
  apply eqb_prop in F. exact F.
Qed.
Lemma gc_is_cat D k l c g : forallb (fun g => Bool.eqb (g =? k) (is_cat g l)) all_gc = true ->
  getGeneralCategory D c = Ok g -> 0 <= g < 30 -> gc_is D k c = Ok (is_cat g l).
Proof.
  intros F G R. unfold gc_is. rewrite G. cbn [bind]. f_equal. rewrite forallb_forall in F. specialize (F g (all_gc_spec g R)).
  apply eqb_prop in F. exact F.
Qed.
Lemma defined_cat D c g : getGeneralCategory D c = Ok g -> 0 <= g < 30 -> isDefined D c = Ok (negb (is_cat g ["Cn"%string])).
Proof.
  intros G R. unfold isDefined. rewrite G. cbn [bind]. f_equal.
  assert (F : forallb (fun g => Bool.eqb (negb (g =? GC_UNASSIGNED)) (negb (is_cat g ["Cn"%string]))) all_gc = true) by (vm_compute; reflexivity).
  rewrite forallb_forall in F. specialize (F g (all_gc_spec g R)). apply eqb_prop in F. exact F.
Qed.

(** ** Numeric values *)

(** the kinds of numeric value, the number that encodes each, and its meaning *)
Inductive numeric :=
| NoValue | Decimal (d : Z) | DigitV (d : Z) | SmallInt (n : Z) | Fraction (n d : Z)
| Large (m e : Z)            (* m * 10^e *)
| Base60 (m e : Z)           (* m * 60^e *)
| Frac20 (i j : Z)           (* (2i+1) / (20 * 2^j) *)
| Frac32 (i j : Z)           (* (2i+1) / (32 * 2^j) *)
| Reserved (k : Z).
Definition numeric_ok (v : numeric) : Prop :=
  match v with
  | NoValue => True
  | Decimal d | DigitV d => 0 <= d < 10
  | SmallInt n => 0 <= n <= 154
  | Fraction n d => -1 <= n <= 17 /\ 1 <= d <= 16
  | Large m e => 1 <= m <= 9 /\ 2 <= e <= 33
  | Base60 m e => 1 <= m <= 9 /\ 1 <= e <= 4
  | Frac20 i j => 0 <= i < 4 /\ 0 <= j < 6
  | Frac32 i j => 0 <= i < 4 /\ 0 <= j < 4
  | Reserved k => 0 <= k
  end.
Definition encode (v : numeric) : Z :=
  match v with
  | NoValue => 0
  | Decimal d => 1 + d
  | DigitV d => 11 + d
  | SmallInt n => 21 + n
  | Fraction n d => 16 * (n + 12) + (d - 1)
  | Large m e => 32 * (m + 14) + (e - 2)
  | Base60 m e => 4 * (m + 191) + (e - 1)
  | Frac20 i j => 804 + 4 * j + i
  | Frac32 i j => 828 + 4 * j + i
  | Reserved k => 844 + k
  end.
Definition exact_value (v : numeric) : option Q :=
  match v with
  | NoValue | Reserved _ => None
  | Decimal d | DigitV d => Some (inject_Z d)
  | SmallInt n => Some (inject_Z n)
  | Fraction n d => Some (inject_Z n / inject_Z d)%Q
  | Large m e => Some (inject_Z (m * 10 ^ e))
  | Base60 m e => Some (inject_Z (m * 60 ^ e))
  | Frac20 i j => Some (inject_Z (2 * i + 1) / inject_Z (20 * 2 ^ j))%Q
  | Frac32 i j => Some (inject_Z (2 * i + 1) / inject_Z (32 * 2 ^ j))%Q
  end.

(** the value of a float, and "[f] is a double nearest to [q]": at most half a unit in
    the last place away (a quarter below a power of two) *)
Definition Qpow2 (e : Z) : Q := match e with Zneg p => 1 # (2 ^ p)%positive | _ => inject_Z (2 ^ e) end.
Definition sf_value (s : bool) (m : positive) (e : Z) : Q := ((if s then - inject_Z (Zpos m) else inject_Z (Zpos m)) * Qpow2 e)%Q.
Definition Qdist (a b : Q) : Q := Qabs (a - b).
Definition nearest (f : spec_float) (q : Q) : Prop :=
  match f with
  | S754_zero _ => (q == 0)%Q
  | S754_finite s m e =>
      2 ^ 52 <= Zpos m < 2 ^ 53 /\ (Qdist q (sf_value s m e) <= Qpow2 (e - 1))%Q /\
      (Zpos m = 2 ^ 52 -> (Qabs (sf_value s m e) - Qpow2 (e - 2) <= Qabs q)%Q)
  | _ => False
  end.
Definition nearestb (f : spec_float) (q : Q) : bool :=
  match f with
  | S754_zero _ => Qeq_bool q 0
  | S754_finite s m e =>
      (2 ^ 52 <=? Zpos m) && (Zpos m <? 2 ^ 53) && Qle_bool (Qdist q (sf_value s m e)) (Qpow2 (e - 1)) &&
      (negb (Zpos m =? 2 ^ 52) || Qle_bool (Qabs (sf_value s m e) - Qpow2 (e - 2)) (Qabs q))
  | _ => false
  end.
Lemma nearestb_spec f q : nearestb f q = true <-> nearest f q.
Proof.
  destruct f; cbn [nearestb nearest]; try (split; [discriminate|tauto]).
  - apply Qeq_bool_iff.
  - rewrite !andb_true_iff, orb_true_iff, negb_true_iff, !Qle_bool_iff, Z.leb_le, Z.ltb_lt, Z.eqb_neq. split.
    + intros [[[A B] C] E]. repeat split; auto. intros Q. destruct E as [E|E]; [contradiction|exact E].
    + intros [[A B] [C E]]. repeat split; auto. destruct (Z.eq_dec (Zpos m) (2 ^ 52)); auto.
Qed.
(** a Python number has a value, or is a double nearest to it *)
Definition means (x : pynum) (q : Q) : Prop :=
  match x with PyInt z => (inject_Z z == q)%Q | PyFloat f => nearest f q end.
Definition meansb (x : pynum) (q : Q) : bool :=
  match x with PyInt z => Qeq_bool (inject_Z z) q | PyFloat f => nearestb f q end.
Lemma meansb_spec x q : meansb x q = true <-> means x q.
Proof. destruct x; [apply Qeq_bool_iff|apply nearestb_spec]. Qed.
(** [x] is exactly [q] *)
Definition exactly (x : pynum) (q : Q) : Prop :=
  match x with
  | PyInt z => (inject_Z z == q)%Q
  | PyFloat (S754_zero _) => (q == 0)%Q
  | PyFloat (S754_finite s m e) => (sf_value s m e == q)%Q
  | _ => False
  end.

Lemma ntv_of g n : 0 <= g < 64 -> numericTypeValueFromProps (g + 64 * n) = n.
Proof.
  intros H. unfold numericTypeValueFromProps, NUMERIC_TYPE_VALUE_SHIFT. rewrite Z.shiftr_div_pow2 by lia. change (2 ^ 6) with 64.
  rewrite Z.mul_comm, Z.div_add by lia. rewrite Z.div_small by lia. reflexivity.
Qed.
Lemma numeric_low g n : 0 <= g < 64 -> numericValueFromProps (g + 64 * n) = numericValueFromProps (64 * n).
Proof.
  intros H. unfold numericValueFromProps. rewrite ntv_of by auto. replace (64 * n) with (0 + 64 * n) by lia. rewrite ntv_of by lia. reflexivity.
Qed.

(** what the code returns for an encoded value *)
Definition decoded (v : numeric) : option pynum := numericValueFromProps (64 * encode v).
Definition good (v : numeric) : bool :=
  match decoded v, exact_value v with Some x, Some q => meansb x q | None, None => true | _, _ => false end.
Lemma good_spec v : good v = true ->
  match exact_value v with Some q => exists x, decoded v = Some x /\ means x q | None => decoded v = None end.
Proof.
  unfold good. destruct (decoded v) as [x|], (exact_value v) as [q|]; try discriminate; auto.
  intros H. exists x. split; [reflexivity|]. apply meansb_spec. exact H.
Qed.
Lemma both (f : Z -> Z -> bool) a b c d : forallb (fun i => forallb (f i) (zrange c d)) (zrange a b) = true ->
  forall i j, a <= i < b -> c <= j < d -> f i j = true.
Proof.
  intros H i j Hi Hj. rewrite forallb_forall in H. specialize (H i (proj2 (zrange_spec a b i) Hi)). rewrite forallb_forall in H.
  apply H. apply zrange_spec. exact Hj.
Qed.
Lemma one (f : Z -> bool) a b : forallb f (zrange a b) = true -> forall i, a <= i < b -> f i = true.
Proof. intros H i Hi. rewrite forallb_forall in H. apply H. apply zrange_spec. exact Hi. Qed.

(** up to 9 * 10^24 for the large integers *)
Lemma good_all v : numeric_ok v -> match v with Large _ e => e <= 24 | _ => True end -> good v = true.
Proof.
  destruct v as [|d|d|n|n d|m e|m e|i j|i j|k]; cbn [numeric_ok]; intros K L.
  - reflexivity.
  - apply (one (fun d => good (Decimal d)) 0 10); [vm_compute; reflexivity|lia].
  - apply (one (fun d => good (DigitV d)) 0 10); [vm_compute; reflexivity|lia].
  - apply (one (fun d => good (SmallInt d)) 0 155); [vm_compute; reflexivity|lia].
  - apply (both (fun n d => good (Fraction n d)) (-1) 18 1 17); [vm_compute; reflexivity|lia|lia].
  - apply (both (fun n d => good (Large n d)) 1 10 2 25); [vm_compute; reflexivity|lia|lia].
  - apply (both (fun n d => good (Base60 n d)) 1 10 1 5); [vm_compute; reflexivity|lia|lia].
  - apply (both (fun n d => good (Frac20 n d)) 0 4 0 6); [vm_compute; reflexivity|lia|lia].
  - apply (both (fun n d => good (Frac32 n d)) 0 4 0 4); [vm_compute; reflexivity|lia|lia].
  - unfold good, decoded, exact_value, encode, numericValueFromProps. replace (64 * (844 + k)) with (0 + 64 * (844 + k)) by lia.
    rewrite ntv_of by lia. unfold NTV_NONE, NTV_DIGIT_START, NTV_NUMERIC_START, NTV_FRACTION_START, NTV_LARGE_START, NTV_RESERVED_START,
      NTV_FRACTION32_START, NTV_FRACTION20_START, NTV_BASE60_START.
    repeat match goal with |- context [?a <? ?b] => replace (a <? b) with false by lia end.
    replace (844 + k =? 0) with false by lia. reflexivity.
Qed.

Theorem numeric_value_ok v g : numeric_ok v -> match v with Large _ e => e <= 24 | _ => True end -> 0 <= g < 64 ->
  match exact_value v with
  | Some q => exists x, numericValueFromProps (g + 64 * encode v) = Some x /\ means x q
  | None => numericValueFromProps (g + 64 * encode v) = None
  end.
Proof. intros K L G. rewrite numeric_low by auto. apply good_spec, good_all; auto. Qed.

(** exact results *)
Definition exactb (x : pynum) (q : Q) : bool :=
  match x with
  | PyInt z => Qeq_bool (inject_Z z) q
  | PyFloat (S754_zero _) => Qeq_bool q 0
  | PyFloat (S754_finite s m e) => Qeq_bool (sf_value s m e) q
  | _ => false
  end.
Lemma exactb_spec x q : exactb x q = true -> exactly x q.
Proof. destruct x as [z|[]]; cbn; try discriminate; apply Qeq_bool_iff. Qed.
Lemma large_exact m e g : 1 <= m <= 9 -> 2 <= e <= 21 -> 0 <= g < 64 ->
  exists x, numericValueFromProps (g + 64 * encode (Large m e)) = Some x /\ exactly x (inject_Z (m * 10 ^ e)).
Proof.
  intros Hm He Hg. rewrite numeric_low by auto.
  assert (E : (match decoded (Large m e) with Some x => exactb x (inject_Z (m * 10 ^ e)) | None => false end) = true).
  { apply (both (fun m e => match decoded (Large m e) with Some x => exactb x (inject_Z (m * 10 ^ e)) | None => false end) 1 10 2 22);
      [vm_compute; reflexivity|lia|lia]. }
  unfold decoded in E. destruct (numericValueFromProps (64 * encode (Large m e))) as [x|]; [|discriminate].
  exists x. split; [reflexivity|]. apply exactb_spec. exact E.
Qed.

Lemma digit_value D c v g : get (propsTrie D) c = Ok (g + 64 * encode v) -> 0 <= g < 64 -> numeric_ok v ->
  digitValue D c = Ok (match v with Decimal d => d | _ => -1 end).
Proof.
  intros G Hg K. unfold digitValue, getNumericTypeValue. rewrite G. cbn [bind].
  fold (numericTypeValueFromProps (g + 64 * encode v)). rewrite ntv_of by auto. unfold NTV_DECIMAL_START. f_equal.
  destruct v; cbn [numeric_ok encode] in *; match goal with |- (if ?a <=? ?b then _ else _) = _ => destruct (a <=? b) eqn:E end; lia.
Qed.

(** every properties word encodes exactly one numeric value *)
Definition decode_ntv (n : Z) : numeric :=
  if n =? 0 then NoValue else if n <? 11 then Decimal (n - 1) else if n <? 21 then DigitV (n - 11) else if n <? 176 then SmallInt (n - 21)
  else if n <? 480 then Fraction (n / 16 - 12) (n mod 16 + 1) else if n <? 768 then Large (n / 32 - 14) (n mod 32 + 2)
  else if n <? 804 then Base60 (n / 4 - 191) (n mod 4 + 1) else if n <? 828 then Frac20 ((n - 804) mod 4) ((n - 804) / 4)
  else if n <? 844 then Frac32 ((n - 828) mod 4) ((n - 828) / 4) else Reserved (n - 844).
Lemma decode_ntv_ok n : 0 <= n -> numeric_ok (decode_ntv n) /\ encode (decode_ntv n) = n.
Proof.
  intros H. unfold decode_ntv.
  repeat match goal with |- context [if ?a then _ else _] => destruct a eqn:? end; cbn [numeric_ok encode];
  repeat match goal with |- context [?a / ?b] =>
    lazymatch goal with _ : a = b * (a / b) + a mod b |- _ => fail | _ => pose proof (Z.div_mod a b ltac:(lia)); pose proof (Z.mod_pos_bound a b ltac:(lia)) end end;
  lia.
Qed.
Lemma encode_inj v w : numeric_ok v -> numeric_ok w -> encode v = encode w -> v = w.
Proof.
  intros Kv Kw E. destruct v, w; cbn [numeric_ok encode] in *; try (exfalso; lia);
  first [reflexivity|match goal with |- ?f ?a = ?f ?b => assert (a = b) by lia; congruence end
        |match goal with |- ?f ?a ?x = ?f ?b ?y => assert (a = b) by lia; assert (x = y) by lia; congruence end].
Qed.
Lemma word_split p : 0 <= p -> exists g v, 0 <= g < 64 /\ numeric_ok v /\ p = g + 64 * encode v.
Proof.
  intros H. exists (p mod 64), (decode_ntv (p / 64)). pose proof (Z.div_mod p 64 ltac:(lia)). pose proof (Z.mod_pos_bound p 64 ltac:(lia)).
  destruct (decode_ntv_ok (p / 64)) as [K E]; [apply Z.div_pos; lia|]. rewrite E. repeat split; auto; lia.
Qed.

(** the largest integers: correct to about sixteen digits *)
Definition within_15_digits (x : pynum) (q : Q) : bool :=
  match x with
  | PyFloat (S754_finite s m e) => Qle_bool (Qdist q (sf_value s m e) * inject_Z (10 ^ 15)) (Qabs q)
  | _ => false
  end.
Lemma large_close m e g : 1 <= m <= 9 -> 2 <= e <= 33 -> 0 <= g < 64 ->
  exists x, numericValueFromProps (g + 64 * encode (Large m e)) = Some x /\ within_15_digits x (inject_Z (m * 10 ^ e)) = true.
Proof.
  intros Hm He Hg. rewrite numeric_low by exact Hg. fold (decoded (Large m e)).
  assert (E : (match decoded (Large m e) with Some x => within_15_digits x (inject_Z (m * 10 ^ e)) | None => false end) = true).
  { apply (both (fun m e => match decoded (Large m e) with Some x => within_15_digits x (inject_Z (m * 10 ^ e)) | None => false end) 1 10 2 34);
    [vm_compute; reflexivity|lia|lia]. }
  destruct (decoded (Large m e)) as [x|]; [|discriminate]. exists x. auto.
Qed.

(** ** Any three 32 bit words are a vector *)
Fixpoint bits_list (n : nat) (w : Z) : list bool := match n with O => [] | S m => Z.odd w :: bits_list m (Z.div2 w) end.
Lemma bits_list_length n : forall w, List.length (bits_list n w) = n.
Proof. induction n as [|n IH]; intros w; cbn [bits_list List.length]; [reflexivity|rewrite IH; reflexivity]. Qed.
Lemma bits_list_val n : forall w, 0 <= w < 2 ^ Z.of_nat n -> bits_val (bits_list n w) = w.
Proof.
  induction n as [|n IH]; intros w H; [cbn in *; lia|]. cbn [bits_list bits_val].
  rewrite Nat2Z.inj_succ, Z.pow_succ_r in H by lia. pose proof (Z.div2_odd w) as E. rewrite IH; [lia|].
  destruct (Z.odd w); cbn [Z.b2z] in E; lia.
Qed.
Definition vec_of (w0 w1 w2 : Z) : vec := mkVec (w0 / 2 ^ 28) (w0 / 2 ^ 24 mod 16) (w0 / 2 ^ 22 mod 4) (w0 / 2 ^ 20 mod 4 * 256 + w0 mod 256)
  (w0 / 2 ^ 17 mod 8) (w0 / 2 ^ 8 mod 512) (bits_list 32 w1) (bits_list 6 (w2 / 2 ^ 26)) (w2 / 2 ^ 20 mod 64) (w2 / 2 ^ 15 mod 32)
  (w2 / 2 ^ 10 mod 32) (w2 / 2 ^ 5 mod 32) (w2 mod 32).
Lemma cut x s n : 0 <= s -> 0 <= n -> x / 2 ^ (s + n) * 2 ^ n + x / 2 ^ s mod 2 ^ n = x / 2 ^ s.
Proof.
  intros Hs Hn. rewrite Z.pow_add_r, <- Z.div_div by lia. rewrite Z.mul_comm. symmetry. apply Z.div_mod. lia.
Qed.
Lemma cut0 x n : 0 <= n -> x / 2 ^ n * 2 ^ n + x mod 2 ^ n = x.
Proof. intros Hn. rewrite Z.mul_comm. symmetry. apply Z.div_mod. lia. Qed.
Lemma vec_of_ok w0 w1 w2 : 0 <= w0 < 2 ^ 32 -> 0 <= w1 < 2 ^ 32 -> 0 <= w2 < 2 ^ 32 ->
  vec_ok (vec_of w0 w1 w2) /\ word0 (vec_of w0 w1 w2) = w0 /\ word1 (vec_of w0 w1 w2) = w1 /\ word2 (vec_of w0 w1 w2) = w2.
Proof.
  intros H0 H1 H2. split; [|split; [|split]].
  - constructor; cbn [vec_of v_major v_minor v_kind v_script v_ea v_block v_bits v_emoji v_lb v_sb v_wb v_gcb v_dt];
      try apply Z.mod_pos_bound; try reflexivity; try apply bits_list_length.
    + split; [apply Z.div_pos; lia|apply Z.div_lt_upper_bound; lia].
    + pose proof (Z.mod_pos_bound (w0 / 2 ^ 20) 4 ltac:(lia)). pose proof (Z.mod_pos_bound w0 256 ltac:(lia)). lia.
  - unfold word0. cbn [vec_of v_major v_minor v_kind v_script v_ea v_block v_bits v_emoji v_lb v_sb v_wb v_gcb v_dt].
    pose proof (Z.mod_pos_bound w0 256 ltac:(lia)) as B. rewrite Z.div_add_l, (Z.div_small (w0 mod 256)) by lia.
    rewrite Z.add_comm with (n := _ * 256) (m := w0 mod 256), Z_mod_plus_full, Z.mod_mod by lia.
    pose proof (cut w0 24 4 ltac:(lia) ltac:(lia)). pose proof (cut w0 22 2 ltac:(lia) ltac:(lia)). pose proof (cut w0 20 2 ltac:(lia) ltac:(lia)).
    pose proof (cut w0 17 3 ltac:(lia) ltac:(lia)). pose proof (cut w0 8 9 ltac:(lia) ltac:(lia)). pose proof (cut0 w0 8 ltac:(lia)).
    change (2 ^ 4) with 16 in *. change (2 ^ 2) with 4 in *. change (2 ^ 3) with 8 in *. change (2 ^ 9) with 512 in *. change (2 ^ 8) with 256 in *.
    cbn [Z.add Pos.add] in *. change (24 + 4) with 28 in *. change (22 + 2) with 24 in *. change (20 + 2) with 22 in *.
    change (17 + 3) with 20 in *. change (8 + 9) with 17 in *. clear - H H3 H4 H5 H6 H7. lia.
  - unfold word1. apply bits_list_val. exact H1.
  - unfold word2. cbn [vec_of v_major v_minor v_kind v_script v_ea v_block v_bits v_emoji v_lb v_sb v_wb v_gcb v_dt].
    rewrite bits_list_val by (split; [apply Z.div_pos; lia|apply Z.div_lt_upper_bound; [lia|exact (proj2 H2)]]).
    pose proof (cut w2 20 6 ltac:(lia) ltac:(lia)). pose proof (cut w2 15 5 ltac:(lia) ltac:(lia)). pose proof (cut w2 10 5 ltac:(lia) ltac:(lia)).
    pose proof (cut w2 5 5 ltac:(lia) ltac:(lia)). pose proof (cut0 w2 5 ltac:(lia)).
    change (20 + 6) with 26 in *. change (15 + 5) with 20 in *. change (10 + 5) with 15 in *. change (5 + 5) with 10 in *.
    change (2 ^ 6) with 64 in *. change (2 ^ 5) with 32 in *. clear - H H3 H4 H5 H6. lia.
Qed.
