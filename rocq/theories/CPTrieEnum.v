(** * CPTrie.enumerator: what it yields below U+1000, and where it never ends. *)
From Coq Require Import ZArith List Bool Lia ZifyBool.
From Verif Require Import Py Arr Bytes UnicodeSet UtilitiesFacts UTrie2Lookup UTrie2Enum CPTrie CPTrieLookup.
Import ListNotations.
Open Scope Z_scope.
Ltac Zify.zify_post_hook ::= Z.to_euclidean_division_equations.

(** The specification: every code point of every range looks up to the range's value. *)
Definition cp_agrees (t : cptrie) (rs : list (Z * Z * Z)) : Prop :=
  forall a b v x, In (a, b, v) rs -> a <= x < b -> cpget t x = Ok v.

(** The part of the trie for the code points below U+1000 is well formed: the 64
    blocks can be read, ASCII is linear, the null block holds one value, and a block
    that is used twice in a row holds one value. *)
Record low_ok (t : cptrie) : Prop := {
  low_reads : forall k, 0 <= k < 64 -> exists y, aget (cp_index t) k = Ok y /\
    forall j, 0 <= j < 64 -> exists v, aget (cp_data t) (y + j) = Ok v;
  low_ascii : aget (cp_index t) 0 = Ok 0 /\ aget (cp_index t) 1 = Ok 64;
  low_null : exists v, forall j, 0 <= j < 64 -> aget (cp_data t) (cp_dataNullOffset t + j) = Ok v;
  low_repeat : forall k y, 0 <= k < 63 -> aget (cp_index t) k = Ok y -> aget (cp_index t) (k + 1) = Ok y ->
    forall j, 0 <= j < 64 -> aget (cp_data t) (y + j) = aget (cp_data t) y }.

Lemma land63 c : Z.land c 63 = c mod 64.
Proof. change 63 with (Z.ones 6). rewrite Z.land_ones by lia. reflexivity. Qed.
Lemma land_n63 c : Z.land c (Z.lnot 63) = 64 * (c / 64).
Proof.
  change 63 with (Z.ones 6). rewrite <- Z.ldiff_land, Z.ldiff_ones_r, Z.shiftl_mul_pow2, Z.shiftr_div_pow2 by lia.
  change (2 ^ 6) with 64. lia.
Qed.
Lemma index3_0 t k : index3 t 0 k = aget (cp_index t) k.
Proof. unfold index3. change (Z.land 0 0x8000 =? 0) with true. reflexivity. Qed.
Lemma tiles_snoc lo r a b (v : Z) : tiles lo r a -> a < b -> tiles lo (r ++ [(a, b, v)]) b.
Proof. intros H1 H2. eapply tiles_app; [exact H1|]. cbn. auto. Qed.
Lemma run_ok {S R} (f : S -> S + R) s n r : f s = inr r -> (1 <= n)%nat -> run_nat f n s = inr r.
Proof. intros H Hn. destruct n; [lia|]. cbn. rewrite H. reflexivity. Qed.

Section E.
  Variable t : cptrie.
  Hypothesis K : low_ok t.
  Variables start limit null : Z.
  Hypothesis SL : 0 <= start < limit.
  Hypothesis LL : limit <= 0x1000.
  Hypothesis NV : aget (cp_data t) (cp_dataNullOffset t) = Ok null.

  Lemma cpget_low x : 0 <= x < 0x1000 ->
    cpget t x = let* y := aget (cp_index t) (x / 64) in aget (cp_data t) (y + x mod 64).
  Proof using K.
    clear - K. intros H. unfold cpget.
    destruct (x <=? 0x7F) eqn:E0.
    - cbn [bind]. destruct (low_ascii t K) as [A0 A1]. assert (Q : x / 64 = 0 \/ x / 64 = 1) by lia.
      destruct Q as [Q|Q]; rewrite Q, ?A0, ?A1; cbn [bind]; f_equal; lia.
    - unfold cpIndex. replace (x <=? (if cp_type t =? TYPE_FAST then 0xFFFF else SMALL_MAX)) with true
        by (unfold SMALL_MAX; destruct (cp_type t =? TYPE_FAST); lia).
      unfold fastIndex. rewrite sh6. change FAST_DATA_MASK with 63. rewrite land63.
      destruct (aget (cp_index t) (x / 64)); reflexivity.
  Qed.

  Record INV (s : cst) : Prop := {
    I_tiles : tiles start (rev (k_out s)) (k_prev s);
    I_changes : changes (rev (k_out s));
    I_last : match k_out s with (_, _, w) :: _ => w <> k_value s | [] => True end;
    I_vals : cp_agrees t (k_out s);
    I_cur : forall x, k_prev s <= x < k_c s -> x < limit -> cpget t x = Ok (k_value s);
    I_prev : k_prev s <= k_c s /\ k_prev s < limit /\ start <= k_c s /\ (start < k_c s -> k_prev s < k_c s);
    I_out : k_c s = start -> k_out s = [] }.

  Lemma adv s v c' : INV s -> k_c s < limit -> k_c s < c' ->
    (forall x, k_c s <= x < c' -> x < limit -> cpget t x = Ok v) ->
    INV (k_setc (k_note s v) c').
  Proof using SL.
    clear - SL. intros [T C La Va Cu Pr Ou] H1 H2 H3. unfold k_note. destruct (v =? k_value s) eqn:E.
    - apply Z.eqb_eq in E. subst v. constructor; cbn [k_setc k_out k_prev k_value k_c]; auto; try lia.
      intros x Hx Hl. destruct (Z_lt_le_dec x (k_c s)); [apply Cu|apply H3]; lia.
    - apply Z.eqb_neq in E. unfold k_yield. destruct (k_prev s <? k_c s) eqn:P.
      + constructor; cbn [k_setc k_out k_prev k_value k_c].
        * cbn [rev]. apply tiles_snoc; [auto|lia].
        * cbn [rev]. apply changes_snoc; [auto|]. rewrite rev_involutive. destruct (k_out s) as [|[[? ?] w] r]; auto.
        * auto.
        * intros a b w x [Q|Q] Hx; [injection Q as <- <- <-; apply Cu; lia|eapply Va; eauto].
        * intros x Hx Hl. apply H3; lia.
        * lia.
        * lia.
      + assert (Q : k_c s = start) by lia. constructor; cbn [k_setc k_out k_prev k_value k_c]; rewrite ?(Ou Q); cbn; auto; try lia. intros a b w x [].
  Qed.

  Definition entry (k : Z) : res Z := aget (cp_index t) k.

  Lemma dloop_ok n : forall s di y, INV s -> k_c s < limit -> entry (k_c s / 64) = Ok y -> di = y + k_c s mod 64 ->
    64 - k_c s mod 64 <= Z.of_nat n ->
    exists s', dloop t limit n 63 di s = Ok s' /\ INV s' /\ k_block s' = k_block s /\
      k_c s' = Z.min limit (64 * (k_c s / 64) + 64).
  Proof using K SL LL.
    clear NV. induction n as [|n IH]; intros s di y J Hc Hy Hdi Hn; [lia|]. cbn [dloop].
    pose proof (I_prev s J) as Pr.
    destruct (low_reads t K (k_c s / 64) ltac:(lia)) as (y' & Hy' & Hr).
    unfold entry in Hy. rewrite Hy' in Hy. injection Hy as ->.
    destruct (Hr (k_c s mod 64) ltac:(lia)) as [v Hv]. rewrite Hdi, Hv. cbn [bind].
    assert (J' : INV (k_setc (k_note s v) (k_c s + 1))).
    { apply adv; auto; try lia. intros x Hx _. replace x with (k_c s) by lia.
      rewrite cpget_low, Hy' by lia. cbn [bind]. exact Hv. }
    set (s1 := k_setc (k_note s v) (k_c s + 1)) in *.
    assert (C1 : k_c s1 = k_c s + 1) by reflexivity.
    assert (B1 : k_block s1 = k_block s) by (subst s1; unfold k_note; destruct (v =? k_value s); reflexivity).
    rewrite C1. rewrite land63.
    destruct ((k_c s + 1 <? limit) && negb ((k_c s + 1) mod 64 =? 0)) eqn:E.
    - destruct (IH s1 (y + k_c s mod 64 + 1) y) as (s' & H1 & H2 & H3 & H4); auto; try lia.
      + rewrite C1. unfold entry. replace ((k_c s + 1) / 64) with (k_c s / 64) by lia. exact Hy'.
      + exists s'. split; [exact H1|]. split; [exact H2|]. split; [congruence|]. rewrite H4, C1.
        replace ((k_c s + 1) / 64) with (k_c s / 64) by lia. reflexivity.
    - exists s1. split; [reflexivity|]. split; [exact J'|]. split; [exact B1|]. rewrite C1. lia.
  Qed.

  Definition BM (s : cst) : Prop :=
    start < k_c s -> k_c s mod 64 = 0 /\ entry (k_c s / 64 - 1) = Ok (k_block s).

  Lemma last_value s : INV s -> start < k_c s -> k_c s <= limit -> cpget t (k_c s - 1) = Ok (k_value s).
  Proof using. clear. intros J H1 H2. pose proof (I_prev s J). apply (I_cur s J); lia. Qed.

  Lemma bloop_ok n : forall k s, 64 - k = Z.of_nat n -> INV s -> (limit <= k_c s \/ (k_c s / 64 = k /\ BM s)) -> 0 <= k ->
    (k = 64 -> limit <= k_c s) ->
    exists s', bloop t start limit null 0 64 (py_range k 64 1) s = Ok s' /\ INV s' /\ limit <= k_c s'.
  Proof using K SL LL NV.
    induction n as [|n IH]; intros k s Hk J Hc K0 Hend.
    - rewrite py_range_nil by lia. exists s. split; [reflexivity|]. split; [auto|]. apply Hend. lia.
    - rewrite py_range_cons by lia. cbn [bloop]. destruct (k_c s >=? limit) eqn:E.
      { exists s. split; [reflexivity|]. split; [auto|lia]. }
      destruct Hc as [Hc|[Hc Hb]]; [lia|]. rewrite index3_0.
      pose proof (I_prev s J) as Pr.
      destruct (low_reads t K k ltac:(lia)) as (y & Hy & Hr). rewrite Hy. cbn [bind].
      change (64 - 1) with 63. rewrite !land63, land_n63.
      assert (REC : forall s', INV s' -> (limit <= k_c s' \/ (k_c s' = 64 * k + 64 /\ k_block s' = y)) ->
        exists s'', bloop t start limit null 0 64 (py_range (k + 1) 64 1) s' = Ok s'' /\ INV s'' /\ limit <= k_c s'').
      { intros s' J' [Q|[Q1 Q2]]; apply IH; auto; try lia. right. split; [lia|]. intros _. split; [lia|].
        rewrite Q1, Q2. unfold entry. replace ((64 * k + 64) / 64 - 1) with k by lia. exact Hy. }
      destruct ((y =? k_block s) && (k_c s - start >=? 64)) eqn:SK.
      + destruct (Hb ltac:(lia)) as [M En]. destruct (k_c s mod 64 =? 0) eqn:M2; [|lia]. cbn [bind].
        apply REC; [|right; cbn [k_setc k_c k_block]; lia].
        assert (Ey : y = k_block s) by lia. unfold entry in En. rewrite <- Ey, Hc in En.
        pose proof (low_repeat t K (k - 1) y ltac:(lia) En ltac:(replace (k - 1 + 1) with k by lia; exact Hy)) as Rep.
        pose proof (last_value s J ltac:(lia) ltac:(lia)) as LV.
        rewrite cpget_low in LV by lia. replace ((k_c s - 1) / 64) with (k - 1) in LV by lia. rewrite En in LV. cbn [bind] in LV.
        rewrite Rep in LV by lia.
        replace s with (k_note s (k_value s)) at 1 by (unfold k_note; rewrite Z.eqb_refl; reflexivity).
        apply adv; auto; try lia. intros x Hx Hl. rewrite cpget_low by lia. replace (x / 64) with k by lia. rewrite Hy. cbn [bind].
        rewrite Rep by lia. exact LV.
      + assert (JB : INV (k_setblock s y)) by (destruct J; constructor; auto).
        destruct (y =? cp_dataNullOffset t) eqn:EN.
        * cbn [bind]. apply REC.
          -- apply adv; auto; cbn [k_setblock k_c]; try lia.
             intros x Hx Hl. rewrite cpget_low by lia. replace (x / 64) with k by lia. rewrite Hy. cbn [bind].
             destruct (low_null t K) as [v Hv]. pose proof (Hv 0 ltac:(lia)) as V0. rewrite Z.add_0_r, NV in V0. injection V0 as <-.
             apply Z.eqb_eq in EN. rewrite EN. apply Hv. lia.
          -- right. unfold k_note. destruct (null =? k_value (k_setblock s y)); cbn [k_setblock k_setc k_c k_block]; lia.
        * destruct (dloop_ok (Z.to_nat 64) (k_setblock s y) (y + k_c s mod 64) y) as (s' & D1 & D2 & D3 & D4); auto; cbn [k_setblock k_c]; try lia.
          -- rewrite Hc. exact Hy.
          -- rewrite D1. cbn [bind]. cbn [k_setblock k_c k_block] in D3, D4. apply REC; auto. lia.
  Qed.

  Theorem cpenum_low fuel : (2 <= fuel)%nat -> limit <= cp_highStart t ->
    exists rs, cpenum t fuel start limit = Ok rs /\ partition start rs limit /\ cp_agrees t rs.
  Proof using K SL LL NV.
    intros Hf Hh. unfold cpenum.
    destruct ((start >=? 0x110000) || (start >=? cp_highStart t)) eqn:E0; [lia|]. rewrite NV. cbn [bind].
    set (s0 := mkCst start start null (-1) (-1) []).
    assert (J0 : INV s0).
    { constructor; cbn; auto; try lia. intros a b v x []. }
    destruct fuel as [|[|fuel]]; [lia|lia|]. cbn [run_nat].
    assert (B : exists s', cp_body t start limit null s0 = Ok s' /\ INV s' /\ limit <= k_c s').
    { unfold cp_body. cbn [s0 k_c]. replace ((start <=? 0xFFFF) && ((cp_type t =? TYPE_FAST) || (start <=? SMALL_MAX))) with true
        by (unfold SMALL_MAX; lia).
      change FAST_DATA_BLOCK_LENGTH with 64. rewrite sh6.
      apply (bloop_ok (Z.to_nat (64 - start / 64))); auto; cbn [s0 k_c]; try lia.
      right. split; [reflexivity|]. intros Q. cbn [s0 k_c] in Q. lia. }
    destruct B as (s1 & B1 & B2 & B3).
    unfold cp_step at 1. cbn [s0 k_c]. replace ((start <? limit) && (start <? cp_highStart t)) with true by lia.
    fold s0. rewrite B1.
    unfold cp_step at 1. replace ((k_c s1 <? limit) && (k_c s1 <? cp_highStart t)) with false by lia.
    unfold cp_finish.
    assert (E : exists c', (if k_c s1 >? limit then Ok (k_setc s1 limit) else
       if k_c s1 <? limit then
         let* v := aget (cp_data t) (cp_dataLength t - HIGH_VALUE_NEG_DATA_OFFSET) in
         Ok (if v =? k_value s1 then s1 else mkCst (k_c s1) (k_prev s1) (k_value s1) (k_block s1) (k_i3block s1) (k_yield s1))
       else Ok s1) = Ok c' /\ k_c c' = limit /\ k_prev c' = k_prev s1 /\ k_value c' = k_value s1 /\ k_out c' = k_out s1).
    { destruct (k_c s1 >? limit) eqn:Q1.
      - eexists. split; [reflexivity|]. repeat split; reflexivity.
      - destruct (k_c s1 <? limit) eqn:Q2; [lia|]. exists s1. repeat split; auto. lia. }
    destruct E as (s2 & E & C1 & C2 & C3 & C4). rewrite E. cbn [bind]. clear E.
    pose proof (I_prev s1 B2) as Pr. exists (rev (k_yield s2)). split; [reflexivity|].
    unfold k_yield. rewrite C1, C2, C3, C4. replace (k_prev s1 <? limit) with true by lia. cbn [rev].
    split; [split|].
    - apply tiles_snoc; [apply (I_tiles s1 B2)|lia].
    - apply changes_snoc; [apply (I_changes s1 B2)|]. rewrite rev_involutive. apply (I_last s1 B2).
    - intros a b v x Hin Hx. apply in_app_or in Hin as [Hin|[Hin|[]]].
      + apply in_rev in Hin. eapply (I_vals s1 B2); eauto.
      + injection Hin as <- <- <-. apply (I_cur s1 B2); lia.
  Qed.
End E.

(** ** Where the enumeration never ends *)

Lemma note_c s v : k_c (k_note s v) = k_c s.
Proof. unfold k_note. destruct (v =? k_value s); reflexivity. Qed.

Section Stuck.
  Variable t : cptrie.
  Variables start limit null : Z.

  Lemma dloop_c n : forall di s s', dloop t limit n 63 di s = Ok s' -> k_c s' <= 64 * (k_c s / 64) + 64.
  Proof using.
    induction n as [|n IH]; intros di s s' H; [discriminate|]. cbn [dloop] in H.
    destruct (aget (cp_data t) di) as [v|]; [|discriminate]. cbn [bind] in H.
    change (k_c (k_setc (k_note s v) (k_c s + 1))) with (k_c s + 1) in H. rewrite land63 in H.
    destruct ((k_c s + 1 <? limit) && negb ((k_c s + 1) mod 64 =? 0)) eqn:E.
    - apply IH in H. cbn [k_setc k_c] in H. lia.
    - injection H as <-. cbn [k_setc k_c]. lia.
  Qed.

  Lemma bloop_c n : forall k s s', 64 - k <= Z.of_nat n -> k_c s / 64 <= k -> (64 <= k -> k_c s <= 4096) ->
    bloop t start limit null 0 64 (py_range k 64 1) s = Ok s' -> k_c s < limit -> 4096 < limit -> k_c s' <= 4096.
  Proof using.
    induction n as [|n IH]; intros k s s' Hn Hk He H Hc Hl.
    - rewrite py_range_nil in H by lia. injection H as <-. lia.
    - destruct (Z_lt_le_dec k 64) as [Q|Q]; [|rewrite py_range_nil in H by lia; injection H as <-; lia].
      rewrite py_range_cons in H by lia. cbn [bloop] in H. replace (k_c s >=? limit) with false in H by lia.
      rewrite index3_0 in H. destruct (aget (cp_index t) k) as [y|]; [|discriminate]. cbn [bind] in H.
      change (64 - 1) with 63 in H. rewrite !land63, land_n63 in H.
      assert (REC : forall s1, k_c s1 <= 64 * k + 64 -> bloop t start limit null 0 64 (py_range (k + 1) 64 1) s1 = Ok s' -> k_c s' <= 4096).
      { intros s1 H1 H2. apply (IH (k + 1) s1 s'); auto; lia. }
      destruct ((y =? k_block s) && (k_c s - start >=? 64)).
      + destruct (k_c s mod 64 =? 0) eqn:M; [|discriminate]. cbn [bind] in H. apply (REC _) in H; [exact H|]. cbn [k_setc k_c]. lia.
      + destruct (y =? cp_dataNullOffset t).
        * cbn [bind] in H. apply (REC _) in H; [exact H|]. cbn [k_setc k_setblock k_c]. lia.
        * destruct (dloop t limit (Z.to_nat 64) 63 _ _) as [s1|] eqn:D; [|discriminate]. cbn [bind] in H.
          apply (REC _) in H; [exact H|]. apply dloop_c in D. cbn [k_setblock k_c] in D. lia.
  Qed.

  Lemma fast_stuck fuel : forall s r, cp_type t = TYPE_FAST -> 4096 < cp_highStart t -> 4096 < limit -> k_c s <= 4096 ->
    run_nat (cp_step t start limit null) fuel s <> inr (Ok r).
  Proof using.
    induction fuel as [|fuel IH]; intros s r Ht Hh Hl Hc E; [discriminate|]. cbn [run_nat] in E.
    destruct (cp_step t start limit null s) as [s1|[s1|e]] eqn:ES; [|unfold cp_step in ES|discriminate].
    - revert E. apply IH; auto. unfold cp_step in ES.
      destruct ((k_c s <? limit) && (k_c s <? cp_highStart t)) eqn:C; [|discriminate].
      destruct (cp_body t start limit null s) as [s2|] eqn:B; [|discriminate]. injection ES as <-.
      unfold cp_body in B. rewrite Ht in B. replace ((k_c s <=? 0xFFFF) && ((TYPE_FAST =? TYPE_FAST) || (k_c s <=? SMALL_MAX))) with true in B
        by (rewrite Z.eqb_refl; lia).
      change FAST_DATA_BLOCK_LENGTH with 64 in B. rewrite sh6 in B.
      apply (bloop_c (Z.to_nat (64 - k_c s / 64))) in B; auto; lia.
    - replace ((k_c s <? limit) && (k_c s <? cp_highStart t)) with true in ES by lia.
      destruct (cp_body t start limit null s); discriminate.
  Qed.

  (** one pass that changes nothing but the remembered index-3 block *)
  Lemma half_stuck fuel : forall s r i3, k_c s = start -> start < limit -> start < cp_highStart t ->
    0x10000 <= start \/ (cp_type t <> TYPE_FAST /\ 0x1000 <= start /\ 0x1000 < cp_highStart t) ->
    256 <= start mod 512 -> i3BlockOf t start = Ok i3 -> i3 <> cp_index3NullOffset t ->
    run_nat (cp_step t start limit null) fuel s <> inr (Ok r).
  Proof using.
    induction fuel as [|fuel IH]; intros s r i3 Hc Hl Hh Hm H2 E3 N E; [discriminate|]. cbn [run_nat] in E.
    assert (ES : exists s', cp_step t start limit null s = inl s' /\ k_c s' = start \/ exists e, cp_step t start limit null s = inr (Err e)).
    { unfold cp_step. rewrite Hc. replace ((start <? limit) && (start <? cp_highStart t)) with true by lia.
      unfold cp_body. rewrite Hc.
      replace ((start <=? 0xFFFF) && ((cp_type t =? TYPE_FAST) || (start <=? SMALL_MAX))) with false by (unfold SMALL_MAX; lia).
      replace (negb (if cp_type t =? TYPE_FAST then (0xFFFF <? start) && (start <? cp_highStart t)
                     else (start <? cp_highStart t) && (cp_highStart t >? SMALL_LIMIT))) with false
        by (change SMALL_LIMIT with 0x1000; unfold TYPE_FAST in *; destruct (cp_type t =? 0) eqn:Q; lia).
      rewrite E3. cbn [bind]. change CP_PER_INDEX_2_ENTRY with 512.
      replace (start - start >=? 512) with false by lia. rewrite andb_false_r.
      destruct (i3 =? cp_index3NullOffset t) eqn:Q; [apply Z.eqb_eq in Q; congruence|].
      rewrite shc4, landc31'. change SMALL_DATA_BLOCK_LENGTH with 16. rewrite py_range_nil by lia. cbn [bloop].
      exists (k_seti3 s i3). left. split; [reflexivity|]. exact Hc. }
    destruct ES as (s' & [[ES C]|[e ES]]); rewrite ES in E; [|discriminate]. revert E. eapply IH; eauto.
  Qed.
End Stuck.

Theorem cpenum_fast_never t fuel start limit rs : cp_type t = TYPE_FAST -> 0x1000 < cp_highStart t ->
  start <= 0x1000 < limit -> cpenum t fuel start limit <> Ok rs.
Proof.
  intros Ht Hh Hs E. unfold cpenum in E. replace ((start >=? 0x110000) || (start >=? cp_highStart t)) with false in E by lia.
  destruct (aget _ _) as [null|]; [|discriminate]. cbn [bind] in E.
  destruct (run_nat _ _ _) as [s|[s|e]] eqn:R; try discriminate.
  apply fast_stuck in R; auto; cbn; lia.
Qed.

Theorem cpenum_half_never t fuel start limit rs i3 : start < limit -> start < cp_highStart t ->
  0x10000 <= start < 0x110000 \/ (cp_type t <> TYPE_FAST /\ 0x1000 <= start < 0x110000 /\ 0x1000 < cp_highStart t) ->
  256 <= start mod 512 -> i3BlockOf t start = Ok i3 -> i3 <> cp_index3NullOffset t ->
  cpenum t fuel start limit <> Ok rs.
Proof.
  intros Hl Hh Hs H2 E3 N E. unfold cpenum in E. replace ((start >=? 0x110000) || (start >=? cp_highStart t)) with false in E by lia.
  destruct (aget _ _) as [null|]; [|discriminate]. cbn [bind] in E.
  destruct (run_nat _ _ _) as [s|[s|e]] eqn:R; try discriminate.
  eapply half_stuck in R; eauto. lia.
Qed.
