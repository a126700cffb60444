(** * The ranges of a UTrie2. *)
From Coq Require Import ZArith List Bool Lia ZifyBool.
From Verif Require Import Py Arr UtilitiesFacts UTrie2 UTrie2Lookup Runs.
Import ListNotations.
Open Scope Z_scope.
Ltac Zify.zify_post_hook ::= Z.to_euclidean_division_equations.

Lemma land_31 c : Z.land c DATA_MASK = c mod 32.
Proof. change DATA_MASK with (Z.ones 5). apply Z.land_ones. lia. Qed.
Lemma shr_5 c : Z.shiftr c SHIFT_2 = c / 32.
Proof. unfold SHIFT_2. rewrite Z.shiftr_div_pow2 by lia. reflexivity. Qed.
Lemma shr_11 c : Z.shiftr c SHIFT_1 = c / 2048.
Proof. unfold SHIFT_1. rewrite Z.shiftr_div_pow2 by lia. reflexivity. Qed.

(** the address of a block of 32 code points *)
Definition block_addr (t : utrie2) (k : Z) : res Z := indexFromCodePoint t (indexLength t) (32 * k).

Lemma block_div c : 32 * (c / 32) / 32 = c / 32. Proof. lia. Qed.
Lemma block_div2 c : 32 * (c / 32) / 2048 = c / 2048. Proof. lia. Qed.
Lemma block_mod c : 32 * (c / 32) mod 32 = 0. Proof. lia. Qed.

Lemma get_by_block t c : 0 <= c -> c < highStart t -> c < 0x10FFFF -> highStart t mod 32 = 0 ->
  get t c = block_get 32 (block_addr t) (aget (index t)) c.
Proof.
  intros H0 H1 H2 H3. unfold get, block_get, block_addr, indexFromCodePoint. set (k := c / 32).
  assert (HK : 32 * k <= c < 32 * k + 32) by lia.
  replace (32 * k <? 0xD800) with (c <? 0xD800) by lia.
  replace (32 * k <=? 0xFFFF) with (c <=? 0xFFFF) by lia.
  replace (32 * k >=? 0xDC00) with (c >=? 0xDC00) by lia.
  replace (32 * k >=? 0x10FFFF) with false by lia.
  replace (c >=? 0x10FFFF) with false by lia.
  replace (32 * k >=? highStart t) with false by lia.
  replace (c >=? highStart t) with false by lia.
  assert (R : forall o, (let* i := indexRaw t o c in aget (index t) i) = (let* a := indexRaw t o (32 * k) in aget (index t) (a + c mod 32))).
  { intros o. unfold indexRaw. rewrite !land_31, !shr_5. subst k. rewrite block_div, block_mod.
    destruct (aget (index t) (o + c / 32)); cbn [bind]; [|reflexivity]. rewrite Z.add_0_r. reflexivity. }
  destruct (c <? 0xD800); [apply R|]. destruct (c <=? 0xFFFF); [apply R|].
  unfold indexFromSupp. rewrite !land_31, !shr_5, !shr_11. subst k. rewrite block_div, block_mod, block_div2.
  destruct (aget (index t) _); cbn [bind]; [|reflexivity].
  destruct (aget (index t) _); cbn [bind]; [|reflexivity]. rewrite Z.add_0_r. reflexivity.
Qed.

Lemma get_high t c : 0x10000 <= c -> highStart t <= c -> c < 0x10FFFF -> get t c = aget (index t) (highValueIndex t).
Proof.
  intros H1 H2 H3. unfold get, indexFromCodePoint.
  replace (c <? 0xD800) with false by lia. replace (c <=? 0xFFFF) with false by lia.
  replace (c >=? 0x10FFFF) with false by lia. replace (c >=? highStart t) with true by lia. reflexivity.
Qed.

(** all ranges; the last one may end at U+10FFFF or later *)
Definition trie_runs (t : utrie2) : res (list (Z * Z * Z)) :=
  let* rs := runs 32 (block_addr t) (aget (index t)) (highStart t / 32) in
  let* v := aget (index t) (highValueIndex t) in
  Ok (rev (if highStart t <? 0x10FFFF then (highStart t, 0x10FFFF, v) :: rs else rs)).

Lemma trie_runs_correct t rs : trie_runs t = Ok rs -> 0x10000 <= highStart t <= 0x110000 -> highStart t mod 32 = 0 ->
  runs_ok (get t) rs 0x10FFFF.
Proof.
  intros H HH HM. unfold trie_runs in H.
  destruct (runs 32 (block_addr t) (aget (index t)) (highStart t / 32)) as [rs0|] eqn:E; [|discriminate]. cbn [bind] in H.
  destruct (aget (index t) (highValueIndex t)) as [v|] eqn:V; [|discriminate]. cbn [bind] in H.
  apply runs_correct in E; try lia. destruct E as [[C O] W].
  replace (32 * (highStart t / 32)) with (highStart t) in C, O, W by lia.
  assert (O' : forall a b u x, In (a, b, u) rs0 -> a <= x < b -> 0 <= x < 0x10FFFF -> get t x = Ok u).
  { intros a b u x Hin Hx Hb. specialize (W a b u Hin). rewrite get_by_block by lia. eapply O; eauto. lia. }
  destruct (highStart t <? 0x10FFFF) eqn:Q.
  - assert (rs = rev ((highStart t, 0x10FFFF, v) :: rs0)) as -> by congruence. clear H. split.
    + intros x Hx. destruct (Z_lt_le_dec x (highStart t)) as [L|L].
      * destruct (C x ltac:(lia)) as (a & b & u & Hin & Hr). exists a, b, u. split; [|auto]. apply -> in_rev. right. exact Hin.
      * exists (highStart t), 0x10FFFF, v. split; [apply -> in_rev; left; reflexivity|lia].
    + intros a b u x Hin Hx Hb. apply in_rev in Hin. destruct Hin as [Hin|Hin]; [|eapply O'; eauto].
      assert (highStart t = a /\ 0x10FFFF = b /\ v = u) as (<- & <- & <-) by (repeat split; congruence).
      rewrite get_high by lia. exact V.
  - assert (rs = rev rs0) as -> by congruence. clear H. split.
    + intros x Hx. destruct (C x ltac:(lia)) as (a & b & u & Hin & Hr). exists a, b, u. split; [|auto]. apply -> in_rev. exact Hin.
    + intros a b u x Hin Hx Hb. apply in_rev in Hin. eapply O'; eauto.
Qed.
