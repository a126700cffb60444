(** * CPTrie.enumerator never gets past the middle of an index-3 block that is not the null block. *)
From Coq Require Import ZArith List Bool Lia ZifyBool.
From Verif Require Import Py Arr UnicodeSet UtilitiesFacts UTrie2Enum CPTrie CPTrieLookup CPTrieEnum.
Import ListNotations.
Open Scope Z_scope.
Ltac Zify.zify_post_hook ::= Z.to_euclidean_division_equations.

Lemma land15 c : Z.land c 15 = c mod 16.
Proof. change 15 with (Z.ones 4). rewrite Z.land_ones by lia. reflexivity. Qed.
Lemma land_n15 c : Z.land c (Z.lnot 15) = 16 * (c / 16).
Proof.
  change 15 with (Z.ones 4). rewrite <- Z.ldiff_land, Z.ldiff_ones_r, Z.shiftl_mul_pow2, Z.shiftr_div_pow2 by lia.
  change (2 ^ 4) with 16. lia.
Qed.
Lemma land511 c : Z.land c 511 = c mod 512.
Proof. change 511 with (Z.ones 9). rewrite Z.land_ones by lia. reflexivity. Qed.
Lemma land_n511 c : Z.land c (Z.lnot 511) = 512 * (c / 512).
Proof.
  change 511 with (Z.ones 9). rewrite <- Z.ldiff_land, Z.ldiff_ones_r, Z.shiftl_mul_pow2, Z.shiftr_div_pow2 by lia.
  change (2 ^ 9) with 512. lia.
Qed.
Lemma i3BlockOf_same t c c' : c / 512 = c' / 512 -> i3BlockOf t c = i3BlockOf t c'.
Proof. intros H. unfold i3BlockOf. rewrite !shc14, !shc9. replace (c / 16384) with (c' / 16384) by lia. rewrite H. reflexivity. Qed.

Lemma ok_inj {A} (a b : A) : Ok a = Ok b -> a = b.
Proof. congruence. Qed.
Lemma setc_c s c : k_c (k_setc s c) = c.
Proof. reflexivity. Qed.

(** the code points that are looked up with the three-stage index *)
Definition staged (t : cptrie) (c : Z) : Prop := 0x10000 <= c \/ (cp_type t <> TYPE_FAST /\ 0x1000 <= c).

Section Never.
  Variable t : cptrie.
  Variables start limit null : Z.

  Lemma note_i3 s v : k_i3block (k_note s v) = k_i3block s.
  Proof. unfold k_note. destruct (v =? k_value s); reflexivity. Qed.

  Lemma dloop_i3 n : forall mask di s s', dloop t limit n mask di s = Ok s' -> k_i3block s' = k_i3block s.
  Proof.
    induction n as [|n IH]; intros mask di s s' H; [discriminate|]. cbn [dloop] in H.
    destruct (aget (cp_data t) di) as [v|]; [|discriminate]. cbn [bind] in H.
    destruct ((_ <? limit) && _); [apply IH in H; rewrite H|injection H as <-]; cbn [k_setc k_i3block]; apply note_i3.
  Qed.
  Lemma bloop_i3 b w : forall l s s', bloop t start limit null b w l s = Ok s' -> k_i3block s' = k_i3block s.
  Proof.
    induction l as [|k l IH]; intros s s' H; cbn [bloop] in H; [injection H as <-; reflexivity|].
    destruct (k_c s >=? limit); [injection H as <-; reflexivity|]. destruct (index3 t b k) as [y|]; [|discriminate]. cbn [bind] in H.
    destruct ((y =? k_block s) && _).
    - destruct (_ =? 0); [|discriminate]. cbn [bind] in H. apply IH in H. exact H.
    - destruct (y =? cp_dataNullOffset t).
      + cbn [bind] in H. apply IH in H. rewrite H. cbn [k_setc k_i3block]. rewrite note_i3. reflexivity.
      + destruct (dloop _ _ _ _ _ _) as [s1|] eqn:D; [|discriminate]. cbn [bind] in H. apply IH in H. rewrite H. apply dloop_i3 in D. exact D.
  Qed.

  Lemma dloop16_c n : forall di s s', dloop t limit n 15 di s = Ok s' -> 16 * (k_c s / 16) + 16 <= limit -> k_c s' = 16 * (k_c s / 16) + 16.
  Proof.
    induction n as [|n IH]; intros di s s' H L; [discriminate|]. cbn [dloop] in H.
    destruct (aget (cp_data t) di) as [v|]; [|discriminate]. cbn [bind] in H.
    change (k_c (k_setc (k_note s v) (k_c s + 1))) with (k_c s + 1) in H. rewrite land15 in H.
    destruct ((k_c s + 1 <? limit) && negb ((k_c s + 1) mod 16 =? 0)) eqn:E.
    - apply IH in H; cbn [k_setc k_c] in *; lia.
    - injection H as <-. cbn [k_setc k_c]. lia.
  Qed.
  Lemma bloop16_c b base n : base mod 512 = 0 -> base + 256 < limit -> forall k s s', 16 - k = Z.of_nat n -> 0 <= k -> base + 16 * k <= k_c s < base + 16 * k + 16 ->
    bloop t start limit null b 16 (py_range k 16 1) s = Ok s' -> base + 256 <= k_c s' /\ k_c s' <= Z.max (base + 256) (k_c s).
  Proof.
    intros M L. induction n as [|n IH]; intros k s s' N K C H.
    - rewrite py_range_nil in H by lia. injection H as <-. lia.
    - rewrite py_range_cons in H by lia. cbn [bloop] in H. replace (k_c s >=? limit) with false in H by lia.
      destruct (index3 t b k) as [y|]; [|discriminate]. cbn [bind] in H. change (16 - 1) with 15 in H. rewrite !land15, land_n15 in H.
      assert (REC : forall s1, k_c s1 = base + 16 * k + 16 -> bloop t start limit null b 16 (py_range (k + 1) 16 1) s1 = Ok s' -> base + 256 <= k_c s' /\ k_c s' <= Z.max (base + 256) (k_c s)).
      { intros s1 C1 H1. apply (IH (k + 1) s1 s') in H1; lia. }
      destruct ((y =? k_block s) && (k_c s - start >=? 16)).
      + destruct (k_c s mod 16 =? 0) eqn:Q; [|discriminate]. cbn [bind] in H. apply (REC _) in H; [exact H|]. cbn [k_setc k_c]. lia.
      + destruct (y =? cp_dataNullOffset t).
        * cbn [bind] in H. apply (REC _) in H; [exact H|]. cbn [k_setc k_setblock k_c]. lia.
        * destruct (dloop t limit (Z.to_nat 16) 15 _ _) as [s1|] eqn:D; [|discriminate]. cbn [bind] in H.
          apply (REC _) in H; [exact H|]. apply dloop16_c in D; cbn [k_setblock k_c] in *; lia.
  Qed.

  Definition stuck (s : cst) : Prop := k_c s < limit /\ k_c s < cp_highStart t /\ staged t (k_c s) /\ 256 <= k_c s mod 512 /\
    i3BlockOf t (k_c s) = Ok (k_i3block s) /\ k_i3block s <> cp_index3NullOffset t.
  Lemma stuck_stays s : stuck s -> 0x1000 < cp_highStart t -> match cp_step t start limit null s with inl s' => stuck s' | inr (Ok _) => False | inr (Err _) => True end.
  Proof.
    intros (L & H & G & M & E & N) HH. unfold cp_step. replace ((k_c s <? limit) && (k_c s <? cp_highStart t)) with true by lia.
    unfold cp_body.
    replace ((k_c s <=? 0xFFFF) && ((cp_type t =? TYPE_FAST) || (k_c s <=? SMALL_MAX))) with false by (unfold SMALL_MAX; destruct G; lia).
    replace (negb (if cp_type t =? TYPE_FAST then (0xFFFF <? k_c s) && (k_c s <? cp_highStart t) else (k_c s <? cp_highStart t) && (cp_highStart t >? SMALL_LIMIT))) with false
      by (change SMALL_LIMIT with 0x1000; destruct G; unfold TYPE_FAST in *; destruct (cp_type t =? 0) eqn:Q; lia).
    rewrite E. cbn [bind]. rewrite Z.eqb_refl. cbn [andb]. change CP_PER_INDEX_2_ENTRY with 512. change (512 - 1) with 511. rewrite land511.
    destruct (k_c s - start >=? 512).
    - replace (k_c s mod 512 =? 0) with false by lia. exact I.
    - replace (k_i3block s =? cp_index3NullOffset t) with false by lia. rewrite shc4, landc31'. change SMALL_DATA_BLOCK_LENGTH with 16.
      rewrite py_range_nil by lia. cbn [bloop]. repeat split; auto.
  Qed.
  Lemma stuck_never fuel : forall s r, 0x1000 < cp_highStart t -> stuck s -> run_nat (cp_step t start limit null) fuel s <> inr (Ok r).
  Proof.
    induction fuel as [|fuel IH]; intros s r H S E; [discriminate|]. cbn [run_nat] in E. pose proof (stuck_stays s S H) as K.
    destruct (cp_step t start limit null s) as [s'|[s'|e]]; [|contradiction|discriminate]. revert E. apply IH; auto.
  Qed.

  Variables m i3 : Z.
  Hypothesis TY : 0x10000 <= start \/ cp_type t <> TYPE_FAST.
  Hypothesis POS : forall i v, aget (cp_index t) i = Ok v -> 0 <= v.
  Hypothesis MS : staged t m.
  Hypothesis MM : 256 <= m mod 512.
  Hypothesis ML : 0 <= start <= m /\ m < limit /\ m < cp_highStart t.
  Hypothesis MI : i3BlockOf t m = Ok i3.
  Hypothesis MN : i3 <> cp_index3NullOffset t.

  Definition before (s : cst) : Prop := (cp_type t = TYPE_FAST -> 0x10000 <= k_c s) /\ k_c s <= m /\ (k_i3block s = -1 \/ k_i3block s = cp_index3NullOffset t).
  Lemma before_step s : before s -> match cp_step t start limit null s with inl s' => before s' \/ stuck s' | inr (Ok _) => False | inr (Err _) => True end.
  Proof using TY POS MS MM ML MI MN.
    intros (F & C & P). assert (HH : 0x1000 < cp_highStart t) by (destruct MS; lia).
    unfold cp_step. replace ((k_c s <? limit) && (k_c s <? cp_highStart t)) with true by lia.
    destruct (cp_body t start limit null s) as [s'|e] eqn:B; [|exact I]. unfold cp_body in B.
    destruct ((k_c s <=? 0xFFFF) && ((cp_type t =? TYPE_FAST) || (k_c s <=? SMALL_MAX))) eqn:LOW.
    - assert (cp_type t <> TYPE_FAST /\ k_c s < 4096) as [NF LC] by (unfold SMALL_MAX in LOW; unfold TYPE_FAST in *; lia).
      change FAST_DATA_BLOCK_LENGTH with 64 in B. rewrite sh6 in B. left. split; [intros Q; contradiction|].
      pose proof (bloop_i3 _ _ _ _ _ B) as I3. split; [|rewrite I3; exact P].
      apply (bloop_c t start limit null (Z.to_nat (64 - k_c s / 64))) in B; try lia; destruct MS; lia.
    - assert (G : staged t (k_c s)) by (unfold staged; unfold SMALL_MAX in LOW; unfold TYPE_FAST in *; lia).
      replace (negb (if cp_type t =? TYPE_FAST then (0xFFFF <? k_c s) && (k_c s <? cp_highStart t) else (k_c s <? cp_highStart t) && (cp_highStart t >? SMALL_LIMIT))) with false in B
        by (change SMALL_LIMIT with 0x1000; destruct G; unfold TYPE_FAST in *; destruct (cp_type t =? 0) eqn:Q; lia).
      destruct (i3BlockOf t (k_c s)) as [j|] eqn:E; [|discriminate]. cbn [bind] in B. change CP_PER_INDEX_2_ENTRY with 512 in B. change (512 - 1) with 511 in B. rewrite land511, land_n511 in B.
      assert (J0 : 0 <= j). { unfold i3BlockOf in E. destruct (aget _ _) as [x|]; [|discriminate]. cbn [bind] in E. exact (POS _ _ E). }
      assert (EARLY : j = cp_index3NullOffset t -> k_c s / 512 < m / 512).
      { intros ->. destruct (Z.eq_dec (k_c s / 512) (m / 512)) as [Q|Q]; [|lia]. exfalso. rewrite (i3BlockOf_same t _ m Q), MI in E. congruence. }
      destruct ((j =? k_i3block s) && (k_c s - start >=? 512)) eqn:SK.
      + destruct (k_c s mod 512 =? 0) eqn:A; [|discriminate]. injection B as <-. left. split; [intros Q; specialize (F Q); cbn [k_setc k_c]; lia|]. split; [|exact P].
        cbn [k_setc k_c]. specialize (EARLY ltac:(lia)). lia.
      + destruct (j =? cp_index3NullOffset t) eqn:N.
        * apply ok_inj in B. subst s'. left. split; [intros Q; specialize (F Q); rewrite setc_c; lia|]. split; [|right; cbn [k_setc k_setblock k_i3block]; rewrite note_i3; cbn [k_seti3 k_i3block]; lia].
          rewrite setc_c. specialize (EARLY ltac:(lia)). lia.
        * rewrite shc4, landc31' in B. change SMALL_DATA_BLOCK_LENGTH with 16 in B. right. pose proof (bloop_i3 _ _ _ _ _ B) as I3. cbn [k_seti3 k_i3block] in I3.
          assert (R : k_c s' / 512 = k_c s / 512 /\ 256 <= k_c s' mod 512 /\ k_c s' <= m).
          { destruct (Z_lt_le_dec (k_c s mod 512) 256) as [Q|Q].
            - apply (bloop16_c j (512 * (k_c s / 512)) (Z.to_nat (16 - (k_c s / 16) mod 32))) in B; cbn [k_seti3 k_c] in *; lia.
            - rewrite py_range_nil in B by lia. injection B as <-. cbn [k_seti3 k_c]. lia. }
          destruct R as (R1 & R2 & R3). unfold stuck. rewrite I3, (i3BlockOf_same t _ _ R1). repeat split; auto; try lia.
          destruct G as [G|[G1 G2]]; [left; lia|right; split; [exact G1|lia]].
  Qed.
  Lemma before_never fuel : forall s r, before s -> run_nat (cp_step t start limit null) fuel s <> inr (Ok r).
  Proof using TY POS MS MM ML MI MN.
    assert (HH : 0x1000 < cp_highStart t) by (destruct MS; lia).
    induction fuel as [|fuel IH]; intros s r B E; [discriminate|]. cbn [run_nat] in E. pose proof (before_step s B) as K.
    destruct (cp_step t start limit null s) as [s'|[s'|e]]; [|contradiction|discriminate]. revert E. destruct K as [K|K]; [apply IH; exact K|apply stuck_never; auto].
  Qed.
End Never.

Theorem cpenum_never t fuel start limit rs m i3 : 0x10000 <= start \/ cp_type t <> TYPE_FAST -> (forall i v, aget (cp_index t) i = Ok v -> 0 <= v) ->
  staged t m -> 256 <= m mod 512 -> 0 <= start <= m -> m < limit -> m < cp_highStart t -> m < 0x110000 -> i3BlockOf t m = Ok i3 -> i3 <> cp_index3NullOffset t ->
  cpenum t fuel start limit <> Ok rs.
Proof.
  intros TY POS MS MM SM ML MH MU MI MN E. unfold cpenum in E. replace ((start >=? 0x110000) || (start >=? cp_highStart t)) with false in E by lia.
  destruct (aget _ _) as [null|]; [|discriminate]. cbn [bind] in E.
  destruct (run_nat _ _ _) as [s|[s|e]] eqn:R; try discriminate.
  eapply before_never in R; eauto. split; [|split; [cbn; lia|left; reflexivity]]. intros Q. cbn [k_c]. destruct TY; [lia|contradiction].
Qed.

(** A FAST trie: nothing from U+1000 to U+FFFF is ever reached. *)
Lemma fast_stays t start limit null fuel : forall s r, cp_type t = TYPE_FAST -> 0x1000 <= k_c s <= 0xFFFF -> k_c s < limit -> k_c s < cp_highStart t ->
  run_nat (cp_step t start limit null) fuel s <> inr (Ok r).
Proof.
  induction fuel as [|fuel IH]; intros s r T C L H E; [discriminate|]. cbn [run_nat] in E.
  assert (S : cp_step t start limit null s = inl s).
  { unfold cp_step. replace ((k_c s <? limit) && (k_c s <? cp_highStart t)) with true by lia. unfold cp_body. rewrite T, Z.eqb_refl. cbn [orb].
    replace (k_c s <=? 0xFFFF) with true by lia. cbn [andb]. rewrite sh6. change FAST_DATA_BLOCK_LENGTH with 64. rewrite py_range_nil by lia. reflexivity. }
  rewrite S in E. revert E. apply IH; auto.
Qed.
Theorem cpenum_fast_never_any t fuel start limit rs : cp_type t = TYPE_FAST -> start <= 0xFFFF -> start < limit -> 0x1000 < limit ->
  start < cp_highStart t -> 0x1000 < cp_highStart t -> cpenum t fuel start limit <> Ok rs.
Proof.
  intros T S SL L SH H. destruct (Z_le_gt_dec start 0x1000) as [Q|Q]; [apply cpenum_fast_never; auto; lia|]. intros E. unfold cpenum in E.
  replace ((start >=? 0x110000) || (start >=? cp_highStart t)) with false in E by lia.
  destruct (aget _ _) as [null|]; [|discriminate]. cbn [bind] in E.
  destruct (run_nat _ _ _) as [s|[s|e]] eqn:R; try discriminate. apply fast_stays in R; auto; cbn [k_c]; lia.
Qed.

(** ** Nothing past highStart is ever yielded *)
Definition ends_by (h : Z) (out : list (Z * Z * Z)) : Prop := Forall (fun r => snd (fst r) <= h) out.
Lemma ends_more h h' out : h <= h' -> ends_by h out -> ends_by h' out.
Proof. intros H. apply Forall_impl. intros r R. lia. Qed.
Lemma note_ends s v : ends_by (k_c s) (k_out s) -> ends_by (k_c s) (k_out (k_note s v)).
Proof.
  intros H. unfold k_note. destruct (v =? k_value s); [exact H|]. cbn [k_out]. unfold k_yield. destruct (k_prev s <? k_c s); [|exact H]. constructor; [cbn; lia|exact H].
Qed.

Section Ends.
  Variable t : cptrie.
  Variables start limit null w : Z.
  Hypothesis W : 0 < w.
  Hypothesis LM : forall c, Z.land c (w - 1) = c mod w.
  Hypothesis LN : forall c, Z.land c (Z.lnot (w - 1)) = w * (c / w).

  Lemma dloop_ends n : forall di s s', dloop t limit n (w - 1) di s = Ok s' -> ends_by (k_c s) (k_out s) ->
    k_c s <= k_c s' <= w * (k_c s / w) + w /\ ends_by (k_c s') (k_out s').
  Proof using W LM.
    clear LN. induction n as [|n IH]; intros di s s' H O; [discriminate|]. cbn [dloop] in H.
    destruct (aget (cp_data t) di) as [v|]; [|discriminate]. cbn [bind] in H. rewrite LM, setc_c in H.
    assert (Q : ends_by (k_c s + 1) (k_out (k_setc (k_note s v) (k_c s + 1)))) by (apply (ends_more (k_c s)); [lia|apply note_ends; exact O]).
    destruct ((k_c s + 1 <? limit) && negb ((k_c s + 1) mod w =? 0)) eqn:E.
    - apply IH in H; [|exact Q]. rewrite setc_c in H. destruct H as [H1 H2]. split; [|exact H2].
      assert ((k_c s + 1) / w = k_c s / w) as R; [|rewrite R in H1; lia].
      assert ((k_c s + 1) mod w <> 0) by lia. pose proof (Z.div_mod (k_c s + 1) w ltac:(lia)). pose proof (Z.mod_pos_bound (k_c s + 1) w W).
      apply (Z.div_unique _ _ _ ((k_c s + 1) mod w - 1)); lia.
    - apply ok_inj in H. subst s'. rewrite setc_c. split; [|exact Q]. pose proof (Z.div_mod (k_c s) w ltac:(lia)). pose proof (Z.mod_pos_bound (k_c s) w W). lia.
  Qed.
  Lemma bloop_ends b B n : forall k s s', w - k = Z.of_nat n -> k_c s / w <= B + k -> bloop t start limit null b w (py_range k w 1) s = Ok s' -> ends_by (k_c s) (k_out s) ->
    k_c s <= k_c s' <= Z.max (k_c s) (w * (B + w)) /\ ends_by (k_c s') (k_out s').
  Proof using W LM LN.
    induction n as [|n IH]; intros k s s' N C H O.
    - rewrite py_range_nil in H by lia. apply ok_inj in H. subst s'. split; [lia|exact O].
    - rewrite py_range_cons in H by lia. cbn [bloop] in H. destruct (k_c s >=? limit); [apply ok_inj in H; subst s'; split; [lia|exact O]|].
      destruct (index3 t b k) as [y|]; [|discriminate]. cbn [bind] in H. rewrite !LM, LN in H.
      assert (D : k_c s < w * (k_c s / w) + w) by (pose proof (Z.div_mod (k_c s) w ltac:(lia)); pose proof (Z.mod_pos_bound (k_c s) w W); lia).
      assert (D2 : w * (k_c s / w) + w <= w * (B + (k + 1))) by nia. assert (D3 : w * (B + (k + 1)) <= w * (B + w)) by nia.
      assert (REC : forall s1, k_c s <= k_c s1 <= w * (k_c s / w) + w -> ends_by (k_c s1) (k_out s1) -> bloop t start limit null b w (py_range (k + 1) w 1) s1 = Ok s' ->
        k_c s <= k_c s' <= Z.max (k_c s) (w * (B + w)) /\ ends_by (k_c s') (k_out s')).
      { intros s1 C1 O1 H1. apply (IH (k + 1) s1 s') in H1; [|lia| |exact O1]. { destruct H1 as [H1 H2]. split; [lia|exact H2]. }
        apply (Z.le_trans _ ((w * (B + (k + 1))) / w)); [apply Z.div_le_mono; lia|]. rewrite Z.mul_comm, Z.div_mul by lia. lia. }
      destruct ((y =? k_block s) && (k_c s - start >=? w)).
      + destruct (k_c s mod w =? 0) eqn:Q; [|discriminate]. cbn [bind] in H. apply (REC _) in H; [exact H| |]; rewrite setc_c.
        * pose proof (Z.div_mod (k_c s) w ltac:(lia)). lia.
        * apply (ends_more (k_c s)); [lia|exact O].
      + destruct (y =? cp_dataNullOffset t).
        * cbn [bind] in H. change (k_c (k_setblock s y)) with (k_c s) in H. assert (E : (k_c s + w) / w = k_c s / w + 1) by (rewrite <- (Z.mul_1_l w) at 1; rewrite Z.div_add by lia; lia).
          rewrite E in H. apply (REC _) in H; [exact H| |]; rewrite setc_c; [lia|]. apply (ends_more (k_c (k_setblock s y))); [cbn [k_setblock k_c]; lia|].
          apply (note_ends (k_setblock s y) null). exact O.
        * destruct (dloop t limit (Z.to_nat w) (w - 1) _ _) as [s1|] eqn:DL; [|discriminate]. cbn [bind] in H.
          apply dloop_ends in DL; [|exact O]. destruct DL as [L1 L2]. apply (REC _) in H; [exact H|exact L1|exact L2].
  Qed.
End Ends.

Lemma step_ends t start limit null s s' : cp_highStart t mod 512 = 0 -> 0x1000 <= cp_highStart t -> cp_type t <> TYPE_FAST \/ 0x10000 <= k_c s ->
  cp_step t start limit null s = inl s' -> ends_by (k_c s) (k_out s) ->
  k_c s <= k_c s' <= cp_highStart t /\ ends_by (k_c s') (k_out s').
Proof.
  intros M H T E O. unfold cp_step in E. destruct ((k_c s <? limit) && (k_c s <? cp_highStart t)) eqn:G; [|discriminate].
  destruct (cp_body t start limit null s) as [s1|] eqn:B; [|discriminate]. assert (s1 = s') as -> by congruence. unfold cp_body in B.
  destruct ((k_c s <=? 0xFFFF) && ((cp_type t =? TYPE_FAST) || (k_c s <=? SMALL_MAX))) eqn:LOW.
  - change FAST_DATA_BLOCK_LENGTH with 64 in B. rewrite sh6 in B. unfold SMALL_MAX in LOW. unfold TYPE_FAST in *. destruct T as [T|T]; [|lia].
    apply (bloop_ends t start limit null 64 ltac:(lia) land63 land_n63 0 0 (Z.to_nat (64 - k_c s / 64))) in B; [|lia|lia|exact O]. destruct B as [B1 B2]. split; [lia|exact B2].
  - match type of B with (if ?c then _ else _) = _ => destruct c; [discriminate|] end.
    destruct (i3BlockOf t (k_c s)) as [j|]; [|discriminate]. cbn [bind] in B. change CP_PER_INDEX_2_ENTRY with 512 in B. change (512 - 1) with 511 in B. rewrite land511, land_n511 in B.
    destruct ((j =? k_i3block s) && (k_c s - start >=? 512)).
    + destruct (k_c s mod 512 =? 0) eqn:A; [|discriminate]. apply ok_inj in B. subst s'. rewrite setc_c. split; [lia|]. apply (ends_more (k_c s)); [lia|exact O].
    + destruct (j =? cp_index3NullOffset t).
      * apply ok_inj in B. subst s'. rewrite setc_c. split; [lia|]. apply (ends_more (k_c (k_seti3 s j))); [cbn [k_seti3 k_c]; lia|]. apply (note_ends (k_seti3 s j) null). exact O.
      * rewrite shc4, landc31' in B. change SMALL_DATA_BLOCK_LENGTH with 16 in B. change (k_c s) with (k_c (k_seti3 s j)) in O. change (k_out s) with (k_out (k_seti3 s j)) in O.
        destruct (Z_lt_le_dec ((k_c s / 16) mod 32) 16) as [Q|Q].
        -- apply (bloop_ends t start limit null 16 ltac:(lia) land15 land_n15 j (32 * (k_c s / 512)) (Z.to_nat (16 - (k_c s / 16) mod 32))) in B; [|lia|cbn [k_seti3 k_c]; lia|exact O]. cbn [k_seti3 k_c] in B. destruct B as [B1 B2]. split; [lia|exact B2].
        -- rewrite py_range_nil in B by lia. apply ok_inj in B. subst s'. split; [cbn [k_seti3 k_c]; lia|exact O].
Qed.
Lemma run_ends t start limit null fuel : forall s r, cp_highStart t mod 512 = 0 -> 0x1000 <= cp_highStart t -> cp_type t <> TYPE_FAST \/ 0x10000 <= k_c s ->
  run_nat (cp_step t start limit null) fuel s = inr (Ok r) -> k_c s <= cp_highStart t -> ends_by (k_c s) (k_out s) -> k_c r <= cp_highStart t /\ ends_by (k_c r) (k_out r).
Proof.
  induction fuel as [|fuel IH]; intros s r M H T E C O; [discriminate|]. cbn [run_nat] in E. destruct (cp_step t start limit null s) as [s'|x] eqn:S.
  - destruct (step_ends _ _ _ _ _ _ M H T S O) as [B O']. apply (IH s' r); auto; [|lia]. destruct T; [left; assumption|right; lia].
  - assert (x = Ok r) as -> by congruence. unfold cp_step in S. destruct ((k_c s <? limit) && (k_c s <? cp_highStart t)); [destruct (cp_body t start limit null s); discriminate|].
    assert (s = r) as -> by congruence. auto.
Qed.
Theorem cpenum_ends t fuel start limit rs : cp_highStart t mod 512 = 0 -> 0x1000 <= cp_highStart t -> start < limit -> cp_highStart t < limit ->
  cpenum t fuel start limit = Ok rs -> ends_by (cp_highStart t) rs.
Proof.
  intros M H SL L E. unfold cpenum in E. destruct ((start >=? 0x110000) || (start >=? cp_highStart t)) eqn:G; [apply ok_inj in E; subst; constructor|].
  destruct (Z.eq_dec (cp_type t) TYPE_FAST) as [T|T].
  - destruct (Z_lt_le_dec start 0x10000) as [Q|Q].
    + destruct (Z.eq_dec (cp_highStart t) 0x1000) as [HQ|HQ].
      2:{ exfalso. apply (cpenum_fast_never_any t fuel start limit rs T); try lia. unfold cpenum. rewrite G. exact E. }
      destruct (aget _ _) as [null|]; [|discriminate]. cbn [bind] in E. destruct (run_nat _ _ _) as [s|[s|e]] eqn:R; try discriminate.
      assert (K : forall fuel s r, run_nat (cp_step t start limit null) fuel s = inr (Ok r) -> k_c s <= 4096 -> ends_by (k_c s) (k_out s) -> k_c r <= 4096 /\ ends_by (k_c r) (k_out r)).
      { clear - T HQ L. induction fuel as [|fuel IH]; intros s r R C O; [discriminate|]. cbn [run_nat] in R. destruct (cp_step t start limit null s) as [s'|x] eqn:S; unfold cp_step in S.
        - destruct ((k_c s <? limit) && (k_c s <? cp_highStart t)) eqn:G; [|discriminate]. destruct (cp_body t start limit null s) as [s1|] eqn:B; [|discriminate].
          assert (s1 = s') as -> by congruence. unfold cp_body in B. rewrite T, Z.eqb_refl in B. cbn [orb] in B. replace (k_c s <=? 0xFFFF) with true in B by lia. cbn [andb] in B.
          change FAST_DATA_BLOCK_LENGTH with 64 in B. rewrite sh6 in B.
          apply (bloop_ends t start limit null 64 ltac:(lia) land63 land_n63 0 0 (Z.to_nat (64 - k_c s / 64))) in B; auto; [|lia|lia]. destruct B as [B1 B2]. apply (IH s' r R); [lia|exact B2].
        - destruct ((k_c s <? limit) && (k_c s <? cp_highStart t)); [destruct (cp_body t start limit null s); congruence|]. assert (s = r) as -> by congruence. auto. }
      destruct (K _ _ _ R) as [K1 K2]; [cbn; lia|constructor|].
      unfold cp_finish in E. replace (k_c s >? limit) with false in E by lia. replace (k_c s <? limit) with true in E by lia. destruct (aget _ _) as [v|]; [|discriminate]. cbn [bind] in E.
      apply ok_inj in E. subst rs. apply Forall_rev. unfold k_yield at 1. destruct (v =? k_value s); cbn [k_prev k_c k_value k_out]; unfold k_yield;
        destruct (k_prev s <? k_c s); repeat (constructor; [cbn; lia|]); apply (ends_more (k_c s)); auto; lia.
    + destruct (aget _ _) as [null|]; [|discriminate]. cbn [bind] in E. destruct (run_nat _ _ _) as [s|[s|e]] eqn:R; try discriminate.
      destruct (run_ends t start limit null fuel (mkCst start start null (-1) (-1) []) s M H (or_intror Q) R) as [K1 K2]; [cbn; lia|constructor|].
      unfold cp_finish in E. replace (k_c s >? limit) with false in E by lia. replace (k_c s <? limit) with true in E by lia. destruct (aget _ _) as [v|]; [|discriminate]. cbn [bind] in E.
      apply ok_inj in E. subst rs. apply Forall_rev. unfold k_yield at 1. destruct (v =? k_value s); cbn [k_prev k_c k_value k_out]; unfold k_yield;
        destruct (k_prev s <? k_c s); repeat (constructor; [cbn; lia|]); apply (ends_more (k_c s)); auto; lia.
  - destruct (aget _ _) as [null|]; [|discriminate]. cbn [bind] in E. destruct (run_nat _ _ _) as [s|[s|e]] eqn:R; try discriminate.
    destruct (run_ends t start limit null fuel (mkCst start start null (-1) (-1) []) s M H (or_introl T) R) as [K1 K2]; [cbn; lia|constructor|].
    unfold cp_finish in E. replace (k_c s >? limit) with false in E by lia. replace (k_c s <? limit) with true in E by lia. destruct (aget _ _) as [v|]; [|discriminate]. cbn [bind] in E.
    apply ok_inj in E. subst rs. apply Forall_rev. unfold k_yield at 1. destruct (v =? k_value s); cbn [k_prev k_c k_value k_out]; unfold k_yield;
      destruct (k_prev s <? k_c s); repeat (constructor; [cbn; lia|]); apply (ends_more (k_c s)); auto; lia.
Qed.
