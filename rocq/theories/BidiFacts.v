(** * Facts about BidiProps that hold for all tables. *)
From Coq Require Import ZArith List Bool Lia ZifyBool Sorted.
From Verif Require Import Py Arr UTrie2 Utilities UtilitiesFacts CharPropsFacts BidiProps.
Import ListNotations.
Open Scope Z_scope.

(** ** The properties word (comments of BidiProps.py:31-40) *)
Record bword := mkBWord { b_class : Z; b_jt : Z; b_bpt : Z; b_join : bool; b_control : bool; b_mirrored : bool; b_delta : Z }.
Record bword_ok (B : bword) : Prop := {
  ok_class : 0 <= b_class B < 32; ok_jt : 0 <= b_jt B < 8; ok_bpt : 0 <= b_bpt B < 4; ok_delta : -4 <= b_delta B <= 3 }.
Definition encode_word (B : bword) : Z :=
  b_class B + 32 * b_jt B + 256 * b_bpt B + 1024 * Z.b2z (b_join B) + 2048 * Z.b2z (b_control B) + 4096 * Z.b2z (b_mirrored B) + 8192 * (b_delta B mod 8).

Lemma part_low x lo n : 0 <= n -> 0 <= lo < 2 ^ n -> (lo + 2 ^ n * x) mod 2 ^ n = lo.
Proof. intros Hn H. rewrite Z.mul_comm, Z_mod_plus_full. apply Z.mod_small. exact H. Qed.
Lemma part_high x lo n : 0 <= n -> 0 <= lo < 2 ^ n -> (lo + 2 ^ n * x) / 2 ^ n = x.
Proof. intros Hn H. rewrite Z.mul_comm, Z.div_add, Z.div_small by lia. reflexivity. Qed.
Lemma b2z_range b : 0 <= Z.b2z b < 2. Proof. destruct b; cbn; lia. Qed.
Lemma mask_shift p s n m : 0 <= s -> 0 <= n -> m = Z.shiftl (Z.ones n) s -> Z.shiftr (Z.land p m) s = p / 2 ^ s mod 2 ^ n.
Proof.
  intros Hs Hn ->. rewrite Z.shiftr_land, Z.shiftr_shiftl_l, Z.sub_diag, Z.shiftl_0_r by lia.
  rewrite Z.shiftr_div_pow2 by exact Hs. apply Z.land_ones. exact Hn.
Qed.

Section Word.
  Variable B : bword.
  Hypothesis K : bword_ok B.
  Let p := encode_word B.
  Lemma word_range : 0 <= p < 65536.
  Proof using K.
    destruct K. subst p. unfold encode_word. pose proof (b2z_range (b_join B)). pose proof (b2z_range (b_control B)). pose proof (b2z_range (b_mirrored B)).
    pose proof (Z.mod_pos_bound (b_delta B) 8 ltac:(lia)). lia.
  Qed.
  Lemma word_fields : p mod 32 = b_class B /\ p / 32 mod 8 = b_jt B /\ p / 256 mod 4 = b_bpt B /\ p / 1024 mod 2 = Z.b2z (b_join B) /\
    p / 2048 mod 2 = Z.b2z (b_control B) /\ p / 4096 mod 2 = Z.b2z (b_mirrored B).
  Proof using K.
    destruct K as [H1 H2 H3 H4]. pose proof (b2z_range (b_join B)) as J. pose proof (b2z_range (b_control B)) as C. pose proof (b2z_range (b_mirrored B)) as M.
    pose proof (Z.mod_pos_bound (b_delta B) 8 ltac:(lia)) as Dl. subst p. unfold encode_word.
    set (j := Z.b2z (b_join B)) in *. set (ct := Z.b2z (b_control B)) in *. set (mi := Z.b2z (b_mirrored B)) in *. set (d := b_delta B mod 8) in *.
    clearbody j ct mi d. repeat split; Z.to_euclidean_division_equations; nia.
  Qed.
  Lemma class_ok : getClassFromProps p = b_class B.
  Proof using K. unfold getClassFromProps, UBIDI_CLASS_MASK. change 0x1f with (Z.ones 5). rewrite Z.land_ones by lia. apply word_fields. Qed.
  Lemma jt_ok : Z.shiftr (Z.land p UBIDI_JT_MASK) UBIDI_JT_SHIFT = b_jt B.
  Proof using K. unfold UBIDI_JT_MASK, UBIDI_JT_SHIFT. rewrite (mask_shift p 5 3) by (lia || reflexivity). apply word_fields. Qed.
  Lemma bpt_ok : Z.shiftr (Z.land p UBIDI_BPT_MASK) UBIDI_BPT_SHIFT = b_bpt B.
  Proof using K. unfold UBIDI_BPT_MASK, UBIDI_BPT_SHIFT. rewrite (mask_shift p 8 2) by (lia || reflexivity). apply word_fields. Qed.
  Lemma bpt_zero : (Z.land p UBIDI_BPT_MASK =? 0) = (b_bpt B =? 0).
  Proof using K.
    rewrite <- bpt_ok. unfold UBIDI_BPT_MASK, UBIDI_BPT_SHIFT. destruct (Z.land p 768 =? 0) eqn:E.
    - apply Z.eqb_eq in E. rewrite E. reflexivity.
    - apply Z.eqb_neq in E. symmetry. apply Z.eqb_neq. intros S. apply E. apply Z.bits_inj'. intros k Hk. rewrite Z.bits_0.
      destruct (Z.lt_ge_cases k 8) as [L|G].
      + rewrite Z.land_spec. change 768 with (Z.shiftl 3 8). rewrite Z.shiftl_spec_low by exact L. apply andb_false_r.
      + pose proof (f_equal (fun z => Z.testbit z (k - 8)) S) as F. cbv beta in F. rewrite Z.bits_0, Z.shiftr_spec in F by lia.
        replace (k - 8 + 8) with k in F by lia. exact F.
  Qed.
  Lemma flag_ok s b : 0 <= s -> p / 2 ^ s mod 2 = Z.b2z b -> getFlagFromProps p s = b.
  Proof.
    intros Hs H. unfold getFlagFromProps. change 1 with (Z.ones 1). rewrite Z.land_ones, Z.shiftr_div_pow2 by lia. change (2 ^ 1) with 2. rewrite H.
    destruct b; reflexivity.
  Qed.
  Lemma delta_ok : getMirrorDeltaFromProps p = Ok (b_delta B).
  Proof using K.
    pose proof word_fields as F. destruct K as [H1 H2 H3 H4]. pose proof (b2z_range (b_join B)). pose proof (b2z_range (b_control B)).
    pose proof (b2z_range (b_mirrored B)).
    replace p with (b_delta B mod 2 ^ 3 * 2 ^ (16 - 3) + (b_class B + 32 * b_jt B + 256 * b_bpt B + 1024 * Z.b2z (b_join B) + 2048 * Z.b2z (b_control B) +
      4096 * Z.b2z (b_mirrored B))) by (subst p; unfold encode_word; change (2 ^ 3) with 8; change (2 ^ (16 - 3)) with 8192; ring).
    unfold getMirrorDeltaFromProps, UBIDI_MIRROR_DELTA_BITS, UBIDI_MIRROR_DELTA_SHIFT. apply arithmeticShift_decodes; [lia| |].
    - change (2 ^ (16 - 13 - 1)) with 4. lia.
    - change (2 ^ (16 - (16 - 13))) with 8192. lia.
  Qed.
End Word.

(** every 16 bit word is one *)
Definition word_of_bits (p : Z) : bword := mkBWord (p mod 32) (p / 32 mod 8) (p / 256 mod 4) (Z.odd (p / 1024)) (Z.odd (p / 2048)) (Z.odd (p / 4096)) (signed 3 (p / 8192)).
Lemma word_of_bits_ok p : 0 <= p < 65536 -> bword_ok (word_of_bits p) /\ encode_word (word_of_bits p) = p.
Proof.
  intros H. assert (R : 0 <= p / 8192 < 8) by (split; [apply Z.div_pos; lia|apply Z.div_lt_upper_bound; lia]).
  pose proof (signed_range 3 (p / 8192) ltac:(lia) R) as S. change (2 ^ (3 - 1)) with 4 in S. split.
  - constructor; cbn [b_class b_jt b_bpt b_delta word_of_bits]; try (apply Z.mod_pos_bound; reflexivity). lia.
  - unfold encode_word, word_of_bits. cbn [b_class b_jt b_bpt b_join b_control b_mirrored b_delta].
    assert (O : forall x, Z.b2z (Z.odd x) = x mod 2) by (intros x; rewrite Zmod_odd; destruct (Z.odd x); reflexivity). rewrite !O.
    assert (M : signed 3 (p / 8192) mod 8 = p / 8192).
    { unfold signed. change (2 ^ (3 - 1)) with 4. change (2 ^ 3) with 8. destruct (p / 8192 <? 4); [apply Z.mod_small; exact R|].
      symmetry. apply (Z.mod_unique _ 8 (-1)); lia. }
    rewrite M. clear M S O. Z.to_euclidean_division_equations. nia.
Qed.

(** ** The mirror table: code points in rising order, each with the position of its partner *)
Definition table_words (t : list (Z * Z)) : list Z := map (fun e => fst e + 2 ^ 21 * snd e) t.
Record table_ok (t : list (Z * Z)) : Prop := {
  t_sorted : StronglySorted (fun a b => fst a < fst b) t;
  t_values : Forall (fun e => 0 <= fst e < 2 ^ 21 /\ 0 <= snd e < zlen t) t }.
(** the partner of [c], or [c] itself if it has none *)
Definition partner (t : list (Z * Z)) (c : Z) : Z :=
  match find (fun e => fst e =? c) t with Some e => fst (nth (Z.to_nat (snd e)) t (0, 0)) | None => c end.

Lemma entry_cp c i : 0 <= c < 2 ^ 21 -> getMirrorCodePointFromProps (c + 2 ^ 21 * i) = c.
Proof. intros H. unfold getMirrorCodePointFromProps. change 0x1FFFFF with (Z.ones 21). rewrite Z.land_ones by lia. apply part_low; [lia|exact H]. Qed.
Lemma entry_index c i : 0 <= c < 2 ^ 21 -> getMirrorIndexFromProps (c + 2 ^ 21 * i) = i.
Proof. intros H. unfold getMirrorIndexFromProps, UBIDI_MIRROR_INDEX_SHIFT. rewrite Z.shiftr_div_pow2 by lia. apply part_high; [lia|exact H]. Qed.
Lemma py_get_nonneg_list (l : list Z) i : 0 <= i < zlen l -> py_get l i = Ok (nth (Z.to_nat i) l 0).
Proof.
  intros Hi. unfold py_get, zlen in *. replace (i <? 0) with false by lia. replace (i <? 0) with false by lia.
  rewrite (nth_error_nth' l 0) by lia. reflexivity.
Qed.
Section Table.
  Variable D : bididata.
  Variable t : list (Z * Z).
  Hypothesis K : table_ok t.
  Hypothesis M : mirrors D = table_words t.
  Lemma table_get i : 0 <= i < zlen t -> py_get (mirrors D) i = Ok (fst (nth (Z.to_nat i) t (0, 0)) + 2 ^ 21 * snd (nth (Z.to_nat i) t (0, 0))).
  Proof using M.
    intros Hi. rewrite M. rewrite py_get_nonneg_list by (unfold table_words, zlen in *; rewrite map_length; lia).
    f_equal. unfold table_words. set (f := fun e : Z * Z => fst e + 2 ^ 21 * snd e). change 0 with (f (0, 0)) at 1. apply (map_nth f).
  Qed.
  Lemma search_ok c : forall l, incl l t -> StronglySorted (fun a b => fst a < fst b) l ->
    searchMirrors D c (table_words l) =
    Ok (match find (fun e => fst e =? c) l with Some e => fst (nth (Z.to_nat (snd e)) t (0, 0)) | None => c end).
  Proof using K M.
    induction l as [|[c2 i] r IH]; intros HI HS; [reflexivity|].
    pose proof (t_values t K) as F. rewrite Forall_forall in F.
    destruct (F (c2, i) (HI (c2, i) (or_introl eq_refl))) as [Hc2 Hi]. cbn [fst snd] in Hc2, Hi.
    cbn [table_words map searchMirrors fst snd find]. rewrite entry_cp by exact Hc2. rewrite (Z.eqb_sym c2 c).
    destruct (c =? c2) eqn:E.
    - rewrite entry_index by exact Hc2. rewrite table_get by exact Hi. cbn [bind snd]. f_equal. apply entry_cp.
      apply (F (nth (Z.to_nat i) t (0, 0))). apply nth_In. unfold zlen in Hi. lia.
    - inversion_clear HS as [|? ? S1 S2]. destruct (c <? c2) eqn:L.
      + replace (find (fun e => fst e =? c) r) with (@None (Z * Z)); [reflexivity|]. symmetry.
        destruct (find (fun e => fst e =? c) r) as [e|] eqn:FE; [|reflexivity]. apply find_some in FE as [Hin Heq].
        rewrite Forall_forall in S2. specialize (S2 e Hin). cbn [fst] in S2. lia.
      + apply IH; [|exact S1]. intros x Hx. apply HI. right. exact Hx.
  Qed.
  Lemma search_table c : searchMirrors D c (mirrors D) = Ok (partner t c).
  Proof using K M. rewrite M. apply search_ok; [apply incl_refl|apply (t_sorted t K)]. Qed.

  Variables (c : Z) (B : bword).
  Hypothesis KB : bword_ok B.
  Hypothesis HW : get (bidiPropsTrie D) c = Ok (encode_word B).
  Lemma mirror_props : getMirrorFromProps D c (encode_word B) = Ok (if b_delta B =? -4 then partner t c else c + b_delta B).
  Proof using K M KB.
    unfold getMirrorFromProps. rewrite (delta_ok B KB). cbn [bind]. unfold UBIDI_ESC_MIRROR_DELTA.
    destruct (b_delta B =? -4); cbn [negb]; [apply search_table|reflexivity].
  Qed.
  Theorem mirror_ok : getMirror D c = Ok (if b_delta B =? -4 then partner t c else c + b_delta B).
  Proof using K M KB HW. unfold getMirror. rewrite HW. cbn [bind]. apply mirror_props. Qed.
  Theorem bracket_ok : getPairedBracket D c = Ok (if b_bpt B =? 0 then c else if b_delta B =? -4 then partner t c else c + b_delta B).
  Proof using K M KB HW.
    unfold getPairedBracket. rewrite HW. cbn [bind]. rewrite (bpt_zero B KB). destruct (b_bpt B =? 0); [reflexivity|apply mirror_props].
  Qed.
End Table.
Theorem fields_ok D c B : bword_ok B -> get (bidiPropsTrie D) c = Ok (encode_word B) ->
  getCharDirection D c = Ok (b_class B) /\ getJoiningType D c = Ok (b_jt B) /\ getPairedBracketType D c = Ok (b_bpt B) /\
  isJoinControl D c = Ok (b_join B) /\ isBidiControl D c = Ok (b_control B) /\ isMirrored D c = Ok (b_mirrored B).
Proof.
  intros K HW. unfold getCharDirection, getJoiningType, getPairedBracketType, isJoinControl, isBidiControl, isMirrored. rewrite HW. cbn [bind].
  rewrite (class_ok B K), (jt_ok B K), (bpt_ok B K). destruct (word_fields B K) as (_ & _ & _ & F1 & F2 & F3).
  unfold UBIDI_JOIN_CONTROL_SHIFT, UBIDI_BIDI_CONTROL_SHIFT, UBIDI_IS_MIRRORED_SHIFT.
  rewrite (flag_ok B 10 (b_join B)), (flag_ok B 11 (b_control B)), (flag_ok B 12 (b_mirrored B)) by (lia || assumption). auto 10.
Qed.

(** partners point back at each other *)
Definition symmetric (t : list (Z * Z)) : Prop := forall i, 0 <= i < zlen t ->
  snd (nth (Z.to_nat (snd (nth (Z.to_nat i) t (0, 0)))) t (0, 0)) = i.
Lemma find_nth t : StronglySorted (fun a b : Z * Z => fst a < fst b) t -> forall k, (k < length t)%nat ->
  find (fun e => fst e =? fst (nth k t (0, 0))) t = Some (nth k t (0, 0)).
Proof.
  induction t as [|e r IH]; intros HS k Hk; [cbn in Hk; lia|]. inversion_clear HS as [|? ? S1 S2]. destruct k as [|k]; cbn [nth find].
  - rewrite Z.eqb_refl. reflexivity.
  - cbn [length] in Hk. rewrite Forall_forall in S2. assert (Lt : (k < length r)%nat) by lia.
    specialize (S2 (nth k r (0, 0)) (nth_In r (0, 0) Lt)).
    replace (fst e =? fst (nth k r (0, 0))) with false by lia. apply IH; [exact S1|lia].
Qed.
Theorem partner_involution t : table_ok t -> symmetric t -> forall c, partner t (partner t c) = c.
Proof.
  intros K S c. unfold partner at 2. destruct (find (fun e => fst e =? c) t) as [[c' i]|] eqn:F.
  - apply find_some in F as [Hin E]. cbn [fst] in E. apply Z.eqb_eq in E. subst c'.
    pose proof (t_values t K) as V. rewrite Forall_forall in V. destruct (V _ Hin) as [_ Hi]. cbn [snd] in Hi |- *. unfold zlen in Hi.
    unfold partner. rewrite (find_nth t (t_sorted t K)) by lia.
    apply (In_nth _ _ (0, 0)) in Hin as (k & Hk & Ek).
    assert (Sk := S (Z.of_nat k) ltac:(unfold zlen; lia)). rewrite Nat2Z.id, Ek in Sk. cbn [snd] in Sk. rewrite Sk, Nat2Z.id, Ek. reflexivity.
  - unfold partner. rewrite F. reflexivity.
Qed.
(** joining groups: two ranges of code points with a table each *)
Theorem joining_group D s1 l1 s2 l2 c :
  aget (indexes D) 4 = Ok s1 -> aget (indexes D) 5 = Ok (s1 + zlen l1) -> aget (indexes D) 6 = Ok s2 -> aget (indexes D) 7 = Ok (s2 + zlen l2) ->
  (forall i, aget (jgArray D) i = py_get l1 i) -> (forall i, aget (jgArray2 D) i = py_get l2 i) ->
  getJoiningGroup D c =
  Ok (if (s1 <=? c) && (c <? s1 + zlen l1) then nth (Z.to_nat (c - s1)) l1 0
      else if (s2 <=? c) && (c <? s2 + zlen l2) then nth (Z.to_nat (c - s2)) l2 0 else 0).
Proof.
  intros I4 I5 I6 I7 A1 A2. unfold getJoiningGroup, UBIDI_IX_JG_START, UBIDI_IX_JG_LIMIT, UBIDI_IX_JG_START2, UBIDI_IX_JG_LIMIT2.
  rewrite I4, I5, I6, I7. cbn [bind].
  assert (G : forall l i, 0 <= i < zlen l -> py_get l i = Ok (nth (Z.to_nat i) l 0)) by exact py_get_nonneg_list.
  destruct ((s1 <=? c) && (c <? s1 + zlen l1)) eqn:E1; [rewrite A1; apply G; lia|].
  destruct ((s2 <=? c) && (c <? s2 + zlen l2)) eqn:E2; [rewrite A2; apply G; lia|]. reflexivity.
Qed.
