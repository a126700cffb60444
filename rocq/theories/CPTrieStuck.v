(** * CPTrie.enumerator: what happens to the requests that are not answered *)
From Coq Require Import ZArith List Bool Lia ZifyBool.
From Verif Require Import Py Arr Bytes UnicodeSet UtilitiesFacts UTrie2Lookup UTrie2Enum CPTrie CPTrieLookup CPTrieEnum CPTrieNever CPTrieExact UTrie2Lazy CPTrieLazy.
Import ListNotations.
Open Scope Z_scope.
Ltac Zify.zify_post_hook ::= Z.to_euclidean_division_equations.

(** ** A limit at the end of a block makes no difference up to there *)
Section Limit.
  Variable t : cptrie.
  Variables start null o limit : Z.
  Hypothesis OL : o <= limit.
  Lemma dloop_lim_64 b : b mod 64 = 0 -> b + 64 <= o -> forall n di s, b <= k_c s < b + 64 ->
    dloop t o n 63 di s = dloop t limit n 63 di s /\ (forall s', dloop t limit n 63 di s = Ok s' -> k_c s' = b + 64).
  Proof using OL.
    intros M O. induction n as [|n IH]; intros di s C; [split; [reflexivity|discriminate]|]. cbn [dloop].
    destruct (aget (cp_data t) di) as [v|e]; [|split; [reflexivity|discriminate]]. cbn [bind].
    destruct (land_len 64 b (k_c s) ltac:(auto) M C) as (_ & _ & LA). change (64 - 1) with 63 in LA.
    set (s1 := k_setc (k_note s v) (k_c s + 1)). change (k_c s1) with (k_c s + 1). rewrite LA.
    destruct (k_c s + 1 =? b + 64) eqn:E.
    - cbn [negb]. rewrite !andb_false_r. split; [reflexivity|]. intros s' Q. injection Q as <-. change (k_c s1) with (k_c s + 1). lia.
    - replace (k_c s + 1 <? o) with true by lia. replace (k_c s + 1 <? limit) with true by lia. cbn [negb andb]. apply IH. change (k_c s1) with (k_c s + 1). lia.
  Qed.
  Lemma bloop_lim_64 i3 base N : 0 <= base -> base mod 64 = 0 -> base + 64 * N <= o ->
    forall n k s, N - k = Z.of_nat n -> base + 64 * k <= k_c s -> (k < N -> k_c s < base + 64 * k + 64) -> (k = N -> k_c s = base + 64 * N) ->
    bloop t start o null i3 64 (py_range k N 1) s = bloop t start limit null i3 64 (py_range k N 1) s /\
    (forall s', bloop t start limit null i3 64 (py_range k N 1) s = Ok s' -> k_c s' = base + 64 * N).
  Proof using OL.
    intros B0 BM O. induction n as [|n IH]; intros k s Hk C1 C2 C3.
    - rewrite py_range_nil by lia. cbn [bloop]. split; [reflexivity|]. intros s' E. injection E as <-. apply C3. lia.
    - rewrite py_range_cons by lia. cbn [bloop]. specialize (C2 ltac:(lia)).
      replace (k_c s >=? o) with false by lia. replace (k_c s >=? limit) with false by lia.
      destruct (index3 t i3 k) as [y|e]; [|split; [reflexivity|discriminate]]. cbn [bind]. change (64 - 1) with 63.
      destruct (land_len 64 (base + 64 * k) (k_c s) ltac:(auto) ltac:(lia) ltac:(lia)) as (LA & LN & _). change (64 - 1) with 63 in LA, LN.
      assert (REC : forall s1, k_c s1 = base + 64 * k + 64 ->
        bloop t start o null i3 64 (py_range (k + 1) N 1) s1 = bloop t start limit null i3 64 (py_range (k + 1) N 1) s1 /\
        (forall s', bloop t start limit null i3 64 (py_range (k + 1) N 1) s1 = Ok s' -> k_c s' = base + 64 * N)) by (intros s1 E; apply IH; lia).
      rewrite !LA. destruct ((y =? k_block s) && _).
      + destruct (k_c s - (base + 64 * k) =? 0) eqn:Q; [|split; [reflexivity|discriminate]]. cbn [bind]. apply REC. cbn [k_setc k_c]. lia.
      + destruct (y =? cp_dataNullOffset t).
        * cbn [bind]. apply REC. cbn [k_setc k_setblock k_c]. rewrite LN. reflexivity.
        * cbn [k_setblock k_c]. rewrite !LA. destruct (dloop_lim_64 (base + 64 * k) ltac:(lia) ltac:(lia) (Z.to_nat 64) (y + (k_c s - (base + 64 * k))) (k_setblock s y) ltac:(cbn [k_setblock k_c]; lia)) as [D1 D2].
          rewrite D1. destruct (dloop t limit (Z.to_nat 64) 63 (y + (k_c s - (base + 64 * k))) (k_setblock s y)) as [s1|e]; [|split; [reflexivity|discriminate]]. cbn [bind].
          apply REC. apply D2. reflexivity.
  Qed.
  Lemma dloop_lim_16 b : b mod 16 = 0 -> b + 16 <= o -> forall n di s, b <= k_c s < b + 16 ->
    dloop t o n 15 di s = dloop t limit n 15 di s /\ (forall s', dloop t limit n 15 di s = Ok s' -> k_c s' = b + 16).
  Proof using OL.
    intros M O. induction n as [|n IH]; intros di s C; [split; [reflexivity|discriminate]|]. cbn [dloop].
    destruct (aget (cp_data t) di) as [v|e]; [|split; [reflexivity|discriminate]]. cbn [bind].
    destruct (land_len 16 b (k_c s) ltac:(auto) M C) as (_ & _ & LA). change (16 - 1) with 15 in LA.
    set (s1 := k_setc (k_note s v) (k_c s + 1)). change (k_c s1) with (k_c s + 1). rewrite LA.
    destruct (k_c s + 1 =? b + 16) eqn:E.
    - cbn [negb]. rewrite !andb_false_r. split; [reflexivity|]. intros s' Q. injection Q as <-. change (k_c s1) with (k_c s + 1). lia.
    - replace (k_c s + 1 <? o) with true by lia. replace (k_c s + 1 <? limit) with true by lia. cbn [negb andb]. apply IH. change (k_c s1) with (k_c s + 1). lia.
  Qed.
  Lemma bloop_lim_16 i3 base N : 0 <= base -> base mod 16 = 0 -> base + 16 * N <= o ->
    forall n k s, N - k = Z.of_nat n -> base + 16 * k <= k_c s -> (k < N -> k_c s < base + 16 * k + 16) -> (k = N -> k_c s = base + 16 * N) ->
    bloop t start o null i3 16 (py_range k N 1) s = bloop t start limit null i3 16 (py_range k N 1) s /\
    (forall s', bloop t start limit null i3 16 (py_range k N 1) s = Ok s' -> k_c s' = base + 16 * N).
  Proof using OL.
    intros B0 BM O. induction n as [|n IH]; intros k s Hk C1 C2 C3.
    - rewrite py_range_nil by lia. cbn [bloop]. split; [reflexivity|]. intros s' E. injection E as <-. apply C3. lia.
    - rewrite py_range_cons by lia. cbn [bloop]. specialize (C2 ltac:(lia)).
      replace (k_c s >=? o) with false by lia. replace (k_c s >=? limit) with false by lia.
      destruct (index3 t i3 k) as [y|e]; [|split; [reflexivity|discriminate]]. cbn [bind]. change (16 - 1) with 15.
      destruct (land_len 16 (base + 16 * k) (k_c s) ltac:(auto) ltac:(lia) ltac:(lia)) as (LA & LN & _). change (16 - 1) with 15 in LA, LN.
      assert (REC : forall s1, k_c s1 = base + 16 * k + 16 ->
        bloop t start o null i3 16 (py_range (k + 1) N 1) s1 = bloop t start limit null i3 16 (py_range (k + 1) N 1) s1 /\
        (forall s', bloop t start limit null i3 16 (py_range (k + 1) N 1) s1 = Ok s' -> k_c s' = base + 16 * N)) by (intros s1 E; apply IH; lia).
      rewrite !LA. destruct ((y =? k_block s) && _).
      + destruct (k_c s - (base + 16 * k) =? 0) eqn:Q; [|split; [reflexivity|discriminate]]. cbn [bind]. apply REC. cbn [k_setc k_c]. lia.
      + destruct (y =? cp_dataNullOffset t).
        * cbn [bind]. apply REC. cbn [k_setc k_setblock k_c]. rewrite LN. reflexivity.
        * cbn [k_setblock k_c]. rewrite !LA. destruct (dloop_lim_16 (base + 16 * k) ltac:(lia) ltac:(lia) (Z.to_nat 16) (y + (k_c s - (base + 16 * k))) (k_setblock s y) ltac:(cbn [k_setblock k_c]; lia)) as [D1 D2].
          rewrite D1. destruct (dloop t limit (Z.to_nat 16) 15 (y + (k_c s - (base + 16 * k))) (k_setblock s y)) as [s1|e]; [|split; [reflexivity|discriminate]]. cbn [bind].
          apply REC. apply D2. reflexivity.
  Qed.
End Limit.

Section Stuck.
  Variable t : cptrie.
  Hypothesis K : regular t.
  Variable null : Z.
  Hypothesis NV : aget (cp_data t) (cp_dataNullOffset t) = Ok null.
  Variables start limit : Z.
  Hypothesis SL : 0 <= start < limit.
  Hypothesis SH : start < cp_highStart t.
  Let s0 := mkCst start start null (-1) (-1) [].

  (** ** The middle of an index-3 block, reached from its beginning *)
  Section Middle.
    Variable o : Z.
    Hypothesis SO : start < o < limit.
    Hypothesis OH : o < cp_highStart t.
    Hypothesis OM : multi t o.
    Hypothesis O5 : o mod 512 = 256.
    Variable i3o : Z.
    Hypothesis OI : i3BlockOf t o = Ok i3o.
    Hypothesis ON : i3o <> cp_index3NullOffset t.
    Hypothesis RO : reach t start o.
    Let OSL : 0 <= start < o.
    Proof. lia. Qed.

    Lemma body_lim s : PINV t null start o s -> k_c s < o ->
      cp_body t start o null s = cp_body t start limit null s /\
      (forall s', cp_body t start limit null s = Ok s' -> k_c s' <= o /\ (k_c s' = o -> k_i3block s' = i3o)).
    Proof using K SO OH OM O5 OI ON RO SH SL.
      intros P C. pose proof (I_prev _ _ _ _ (P_inv _ _ _ _ _ P)) as Pr. destruct OM as [OM1 OM2]. unfold cp_body.
      destruct (Z_lt_le_dec (k_c s) 0x1000) as [Lo|Hi].
      - replace ((k_c s <=? 0xFFFF) && ((cp_type t =? TYPE_FAST) || (k_c s <=? SMALL_MAX))) with true by (unfold SMALL_MAX; lia).
        change FAST_DATA_BLOCK_LENGTH with 64. rewrite sh6.
        destruct (bloop_lim_64 t start null o limit ltac:(lia) 0 0 64 ltac:(lia) ltac:(reflexivity) ltac:(lia) (Z.to_nat (64 - k_c s / 64)) (k_c s / 64) s ltac:(lia) ltac:(lia) ltac:(lia) ltac:(lia)) as [A B].
        split; [exact A|]. intros s' E. specialize (B s' E). split; [lia|]. intros Q. lia.
      - assert (F : cp_type t = TYPE_FAST -> 0x10000 <= start) by (intros T; apply (fast_start t start o RO T); unfold stop; lia).
        replace ((k_c s <=? 0xFFFF) && ((cp_type t =? TYPE_FAST) || (k_c s <=? SMALL_MAX))) with false
          by (unfold SMALL_MAX; destruct (cp_type t =? TYPE_FAST) eqn:T; [specialize (F ltac:(lia)); lia|lia]).
        destruct (negb _); [split; [reflexivity|discriminate]|]. destruct (i3BlockOf t (k_c s)) as [i3|e] eqn:E3; [|split; [reflexivity|discriminate]]. cbn [bind].
        assert (SAME : k_c s / 512 = o / 512 -> i3 = i3o) by (intros Q; rewrite (i3BlockOf_same t (k_c s) o Q), OI in E3; congruence).
        change CP_PER_INDEX_2_ENTRY with 512. change (512 - 1) with 511. rewrite land511, land_n511.
        destruct ((i3 =? k_i3block s) && (k_c s - start >=? 512)) eqn:SK.
        + split; [reflexivity|]. intros s' E. destruct (k_c s mod 512 =? 0) eqn:Q; [|discriminate]. apply ok_inj in E. subst s'. cbn [k_setc k_c k_i3block].
          assert (N3 : i3 = cp_index3NullOffset t).
          { assert (0 <= i3). { unfold i3BlockOf in E3. destruct (aget (cp_index t) _) as [z|]; [|discriminate]. cbn [bind] in E3. exact (rg_index t K _ _ E3). }
            destruct (P_i3 _ _ _ _ _ P) as [P3|[P3|(_ & P3 & _)]]; lia. }
          assert (k_c s / 512 <> o / 512) by (intros X; apply ON; rewrite <- (SAME X); exact N3). lia.
        + destruct (i3 =? cp_index3NullOffset t) eqn:NN.
          * split; [reflexivity|]. intros s' E. apply ok_inj in E. subst s'. cbn [k_setc k_c k_i3block].
            assert (k_c s / 512 <> o / 512) by (intros X; apply ON; rewrite <- (SAME X); lia). split; [lia|intros Q; exfalso; lia].
          * rewrite shc4, landc31'. change SMALL_DATA_BLOCK_LENGTH with 16.
            destruct (Z_lt_le_dec (k_c s mod 512) 256) as [HF|HF].
            -- destruct (bloop_lim_16 t start null o limit ltac:(lia) i3 (512 * (k_c s / 512)) 16 ltac:(lia) ltac:(lia) ltac:(lia) (Z.to_nat (16 - k_c s / 16 mod 32)) (k_c s / 16 mod 32) (k_seti3 s i3)
                 ltac:(lia) ltac:(cbn [k_seti3 k_c]; lia) ltac:(cbn [k_seti3 k_c]; lia) ltac:(cbn [k_seti3 k_c]; lia)) as [A B].
               split; [exact A|]. intros s' E. assert (B' := B s' E). split; [lia|]. intros Q. apply bloop_i3 in E. rewrite E. cbn [k_seti3 k_i3block]. apply SAME. lia.
            -- rewrite py_range_nil by lia. cbn [bloop]. split; [reflexivity|]. intros s' E. apply ok_inj in E. subst s'. cbn [k_seti3 k_c]. lia.
    Qed.

    Lemma run_lim n : forall s s', PINV t null start o s -> k_c s <= o -> (k_c s = o -> k_i3block s = i3o) -> run_nat (cp_step t start o null) n s = inr (Ok s') ->
      exists m, run_nat (cp_step t start limit null) m s = inl s' /\ k_c s' = o /\ k_i3block s' = i3o /\ PINV t null start o s'.
    Proof using K NV SO OH OM O5 OI ON RO SH SL OSL.
      induction n as [|n IH]; intros s s' P C C3 E; [discriminate|]. cbn [run_nat] in E. unfold cp_step at 1 in E.
      destruct ((k_c s <? o) && (k_c s <? cp_highStart t)) eqn:Q.
      - destruct (body_lim s P ltac:(lia)) as [A B]. destruct (pass t K null NV start o OSL SH RO s P ltac:(lia) ltac:(lia)) as (s1 & E1 & P1 & _).
        rewrite E1 in E. rewrite E1 in A. symmetry in A. destruct (B s1 A) as [B1 B2]. destruct (IH s1 s' P1 B1 B2 E) as (m & M). exists (S m). cbn [run_nat]. unfold cp_step at 1.
        replace ((k_c s <? limit) && (k_c s <? cp_highStart t)) with true by lia. rewrite A. exact M.
      - injection E as <-. exists 0%nat. cbn [run_nat]. split; [reflexivity|]. split; [lia|]. split; [apply C3; lia|exact P].
    Qed.

    Lemma middle : exists m s fuel, run_nat (cp_step t start limit null) m s0 = inl s /\ k_c s = o /\ k_i3block s = i3o /\
      cpenum t fuel start o = Ok (rev (k_out s) ++ [(k_prev s, o, k_value s)]).
    Proof using K NV SO OH OM O5 OI ON RO SH SL OSL.
      destruct (rg_high t K) as [_ HH].
      assert (P0 : PINV t null start o s0).
      { constructor; cbn [s0 k_c k_i3block k_block]; [|intros Q; cbn [s0 k_c] in Q; lia|left; reflexivity|lia|left; reflexivity].
        constructor; cbn [s0 k_c k_out k_prev k_value rev]; [reflexivity|exact I|exact I|intros a b v x []|intros x Hx; lia|lia|reflexivity]. }
      destruct (run_all t K null NV start o OSL SH RO (Z.to_nat (stop t o - start)) s0 P0 ltac:(cbn [s0 k_c]; lia)) as (s & E & P & Q).
      destruct (run_lim _ s0 s P0 ltac:(cbn [s0 k_c]; lia) ltac:(cbn [s0 k_c]; lia) E) as (m & R & C & C3 & _).
      exists m, s, (S (Z.to_nat (stop t o - start))). split; [exact R|]. split; [exact C|]. split; [exact C3|].
      pose proof (I_prev _ _ _ _ (P_inv _ _ _ _ _ P)) as Pr.
      unfold cpenum. replace ((start >=? 0x110000) || (start >=? cp_highStart t)) with false by lia. rewrite NV. cbn [bind]. fold s0. rewrite E. unfold cp_finish.
      replace (k_c s >? o) with false by lia. replace (k_c s <? o) with false by lia. cbn [bind]. unfold k_yield. rewrite C. replace (k_prev s <? o) with true by lia. reflexivity.
    Qed.

    (** there the generator raises AssertionError, or loops for ever *)
    Lemma middle_step s : k_c s = o -> k_i3block s = i3o ->
      cp_stepL t start limit null s = if o - start >=? 512 then inr (s, Some AssertionError) else inl s.
    Proof using K SO OH OM O5 OI ON.
      intros C C3. destruct OM as [OM1 OM2]. unfold cp_stepL. replace ((k_c s <? limit) && (k_c s <? cp_highStart t)) with true by lia. unfold cp_bodyL. rewrite C.
      replace ((o <=? 0xFFFF) && ((cp_type t =? TYPE_FAST) || (o <=? SMALL_MAX))) with false
        by (unfold SMALL_MAX; destruct (cp_type t =? TYPE_FAST) eqn:T; [specialize (OM1 ltac:(lia)); lia|lia]).
      replace (negb (if cp_type t =? TYPE_FAST then (0xFFFF <? o) && (o <? cp_highStart t) else (o <? cp_highStart t) && (cp_highStart t >? SMALL_LIMIT))) with false
        by (change SMALL_LIMIT with 0x1000; destruct (cp_type t =? TYPE_FAST) eqn:T; [specialize (OM1 ltac:(lia)); lia|lia]).
      rewrite OI. cbn [withC]. rewrite C3, Z.eqb_refl. change CP_PER_INDEX_2_ENTRY with 512. change (512 - 1) with 511. rewrite land511. cbn [andb].
      destruct (o - start >=? 512) eqn:D; [replace (o mod 512 =? 0) with false by lia; reflexivity|].
      replace (i3o =? cp_index3NullOffset t) with false by lia. rewrite shc4, landc31'. change SMALL_DATA_BLOCK_LENGTH with 16. rewrite py_range_nil by lia. cbn [bloopL].
      f_equal. destruct s. cbn in *. subst. reflexivity.
    Qed.
  End Middle.

  (** ** A request that begins in the second half of an index-3 block *)
  Lemma half_step i3o : multi t start -> 256 <= start mod 512 -> i3BlockOf t start = Ok i3o -> i3o <> cp_index3NullOffset t ->
    exists s, cp_stepL t start limit null s0 = inl s /\ cp_stepL t start limit null s = inl s /\ k_c s = start /\ k_out s = [].
  Proof using K SL SH.
    intros [M1 M2] M5 I3 NN. exists (k_seti3 s0 i3o).
    assert (ST : forall s, k_c s = start -> cp_stepL t start limit null s = inl (k_seti3 s i3o)).
    { intros s C. unfold cp_stepL. replace ((k_c s <? limit) && (k_c s <? cp_highStart t)) with true by lia. unfold cp_bodyL. rewrite C.
      replace ((start <=? 0xFFFF) && ((cp_type t =? TYPE_FAST) || (start <=? SMALL_MAX))) with false
        by (unfold SMALL_MAX; destruct (cp_type t =? TYPE_FAST) eqn:T; [specialize (M1 ltac:(lia)); lia|lia]).
      replace (negb (if cp_type t =? TYPE_FAST then (0xFFFF <? start) && (start <? cp_highStart t) else (start <? cp_highStart t) && (cp_highStart t >? SMALL_LIMIT))) with false
        by (change SMALL_LIMIT with 0x1000; destruct (cp_type t =? TYPE_FAST) eqn:T; [specialize (M1 ltac:(lia)); lia|lia]).
      rewrite I3. cbn [withC]. change CP_PER_INDEX_2_ENTRY with 512. replace (start - start >=? 512) with false by lia. rewrite andb_false_r.
      replace (i3o =? cp_index3NullOffset t) with false by lia. rewrite shc4, landc31'. change SMALL_DATA_BLOCK_LENGTH with 16. rewrite py_range_nil by lia. reflexivity. }
    split; [apply ST; reflexivity|]. split; [rewrite ST by reflexivity; reflexivity|]. split; reflexivity.
  Qed.

  (** ** U+1000..U+FFFF of a FAST trie *)
  Lemma fast_step s : cp_type t = TYPE_FAST -> 0x1000 <= k_c s <= 0xFFFF -> k_c s < limit -> k_c s < cp_highStart t -> cp_stepL t start limit null s = inl s.
  Proof using.
    intros T C L H. unfold cp_stepL. replace ((k_c s <? limit) && (k_c s <? cp_highStart t)) with true by lia. unfold cp_bodyL. rewrite T, Z.eqb_refl.
    replace (k_c s <=? 0xFFFF) with true by lia. cbn [orb andb]. rewrite sh6. change FAST_DATA_BLOCK_LENGTH with 64. rewrite py_range_nil by lia. reflexivity.
  Qed.
  Lemma fast_run : start < 0x1000 -> 0x1000 < limit -> 0x1000 < cp_highStart t ->
    exists m s fuel, run_nat (cp_step t start limit null) m s0 = inl s /\ k_c s = 0x1000 /\ cpenum t fuel start 0x1000 = Ok (rev (k_out s) ++ [(k_prev s, 0x1000, k_value s)]).
  Proof using K NV SL SH.
    intros S0 L0 H0. destruct (rg_high t K) as [_ HH]. assert (OSL : 0 <= start < 0x1000) by lia.
    assert (RO : reach t start 0x1000).
    { split; [intros _ _; unfold stop; lia|]. intros m Hm [_ M]. unfold stop in Hm. lia. }
    assert (P0 : PINV t null start 0x1000 s0).
    { constructor; cbn [s0 k_c k_i3block k_block]; [|intros Q; cbn [s0 k_c] in Q; lia|left; reflexivity|lia|left; reflexivity].
      constructor; cbn [s0 k_c k_out k_prev k_value rev]; [reflexivity|exact I|exact I|intros a b v x []|intros x Hx; lia|lia|reflexivity]. }
    destruct (pass t K null NV start 0x1000 OSL SH RO s0 P0 ltac:(cbn [s0 k_c]; lia) ltac:(cbn [s0 k_c]; lia)) as (s & E & P & _).
    assert (A : cp_body t start 0x1000 null s0 = cp_body t start limit null s0 /\ (forall s', cp_body t start limit null s0 = Ok s' -> k_c s' = 0x1000)).
    { unfold cp_body. change (k_c s0) with start. replace ((start <=? 0xFFFF) && ((cp_type t =? TYPE_FAST) || (start <=? SMALL_MAX))) with true by (unfold SMALL_MAX; lia).
      change FAST_DATA_BLOCK_LENGTH with 64. rewrite sh6.
      destruct (bloop_lim_64 t start null 0x1000 limit ltac:(lia) 0 0 64 ltac:(lia) ltac:(reflexivity) ltac:(lia) (Z.to_nat (64 - start / 64)) (start / 64) s0 ltac:(lia) ltac:(cbn [s0 k_c]; lia) ltac:(cbn [s0 k_c]; lia) ltac:(cbn [s0 k_c]; lia)) as [A B].
      split; [exact A|]. intros s' Q. apply B in Q. exact Q. }
    destruct A as [A B]. rewrite E in A. symmetry in A. assert (C := B s A).
    exists 1%nat, s, 2%nat. split; [cbn [run_nat]; unfold cp_step; change (k_c s0) with start; replace ((start <? limit) && (start <? cp_highStart t)) with true by lia; rewrite A; reflexivity|].
    split; [exact C|]. pose proof (I_prev _ _ _ _ (P_inv _ _ _ _ _ P)) as Pr.
    unfold cpenum. replace ((start >=? 0x110000) || (start >=? cp_highStart t)) with false by lia. rewrite NV. cbn [bind]. fold s0. cbn [run_nat]. unfold cp_step at 1.
    change (k_c s0) with start. replace ((start <? 0x1000) && (start <? cp_highStart t)) with true by lia. rewrite E. unfold cp_step.
    replace ((k_c s <? 0x1000) && (k_c s <? cp_highStart t)) with false by lia. unfold cp_finish.
    replace (k_c s >? 0x1000) with false by lia. replace (k_c s <? 0x1000) with false by lia. cbn [bind]. unfold k_yield. rewrite C. replace (k_prev s <? 0x1000) with true by lia. reflexivity.
  Qed.

  (** ** Where the consumer is left *)
  Lemma run_inl m s : run_nat (cp_step t start limit null) m s0 = inl s -> run_nat (cp_stepL t start limit null) m s0 = inl s.
  Proof using. intros E. rewrite <- run_sameC in E. destruct (run_nat (cp_stepL t start limit null) m s0) as [s1|k]; [cbn [sideC] in E; congruence|discriminate]. Qed.
  Lemma loops_for_ever s n : cp_stepL t start limit null s = inl s -> run_nat (cp_stepL t start limit null) n s = inl s.
  Proof using. intros E. induction n as [|n IH]; [reflexivity|]. cbn [run_nat]. rewrite E. exact IH. Qed.
  Lemma lazy_from m s : run_nat (cp_stepL t start limit null) m s0 = inl s -> forall e,
    (e = OutOfFuel /\ cp_stepL t start limit null s = inl s) \/ (e = AssertionError /\ cp_stepL t start limit null s = inr (s, Some AssertionError)) ->
    forall fuel, (m < fuel)%nat -> cpenumL t fuel start limit = (rev (k_out s), Some e).
  Proof using K NV SH.
    intros R e H fuel F. destruct (rg_high t K) as [_ HH]. unfold cpenumL. replace ((start >=? 0x110000) || (start >=? cp_highStart t)) with false by lia. rewrite NV. fold s0.
    replace fuel with (m + S (fuel - m - 1))%nat by lia. rewrite run_nat_add, R. destruct H as [[-> H]|[-> H]].
    - rewrite (loops_for_ever s _ H). reflexivity.
    - cbn [run_nat]. rewrite H. reflexivity.
  Qed.
End Stuck.
