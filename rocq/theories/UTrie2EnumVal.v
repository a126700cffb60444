(** * UTrie2.enumerator: within one window the yielded values are the stored ones. *)
From Coq Require Import ZArith List Bool Lia ZifyBool.
From Verif Require Import Py Arr UnicodeSet UnicodeSetViews Utilities UTrie2 UtilitiesFacts UTrie2Enum.
Import ListNotations.
Open Scope Z_scope.
Ltac Zify.zify_post_hook ::= Z.to_euclidean_division_equations.

(** The specification: every code point of every range looks up to the range's value. *)
Definition agrees {V} (vf : Z -> V) (t : utrie2) (rs : list (Z * Z * V)) : Prop :=
  forall a b v x, In (a, b, v) rs -> a <= x < b -> exists w, get t x = Ok w /\ vf w = v.

(** the null data block holds the initial value; the null index-2 block refers to it *)
Record nulls_ok (t : utrie2) : Prop := {
  N_data : forall j, 0 <= j < 32 -> aget (index t) (dataNullOffset t + j) = Ok (initialValue t);
  N_i2 : forall k, 0 <= k < 64 -> exists x, aget (index t) (index2NullOffset t + k) = Ok x /\ 4 * x = dataNullOffset t }.

Section W.
  Context {V : Type} (veq : V -> V -> bool) (vf : Z -> V).
  Hypothesis veq_spec : forall a b, veq a b = true <-> a = b.
  Variable t : utrie2.
  Variables start limit : Z.
  Hypothesis NO : nulls_ok t.
  Variables b i0 : Z.
  (** the data block of code point [x] in this window *)
  Definition entry (x : Z) : res Z := aget (index t) (b + (i0 + (x / 32 - start / 32))).
  Hypothesis reads : forall x, start <= x < limit -> get t x = (let* y := entry x in aget (index t) (4 * y + x mod 32)).
  Hypothesis start0 : 0 <= start < limit.
  Hypothesis first_ok : start mod 32 = 0 \/ entry start <> Ok (dataNullOffset t / 4) \/ dataNullOffset t mod 4 <> 0.

  Definition holds (x : Z) (v : V) : Prop := exists w, get t x = Ok w /\ vf w = v.

  Record VI (s : est (V := V)) : Prop := {
    V_out : forall p q v x, In (p, q, v) (e_out s) -> p <= x < q -> x < limit -> holds x v;
    V_cur : forall x, e_prev s <= x < e_c s -> x < limit -> holds x (e_value s);
    V_prev : start <= e_prev s <= e_c s }.
  Definition BM (s : est (V := V)) : Prop :=
    e_block s = -1 \/ (e_c s mod 32 = 0 /\ start / 32 < e_c s / 32 /\
      exists y, entry (e_c s - 32) = Ok y /\ e_block s = 4 * y).

  (** [note] with the value of [c] and a step over code points with that value *)
  Lemma VI_note s v n : 0 < n -> VI s -> (forall x, e_c s <= x < e_c s + n -> x < limit -> holds x v) ->
    VI (advance (note veq s v) n).
  Proof using veq_spec.
    clear - veq_spec.
    intros Hn [A B C] H. unfold note. destruct (veq v (e_value s)) eqn:E.
    - apply veq_spec in E. subst v. constructor; cbn; auto; [|lia].
      intros x Hx Hl. destruct (Z_lt_le_dec x (e_c s)); [apply B; auto; lia|apply H; auto; lia].
    - unfold out_before. constructor; cbn; [|intros; apply H; auto; lia|lia].
      destruct (e_prev s <? e_c s); auto. cbn. intros p q w x [Hi|Hi] Hx Hl.
      + injection Hi as <- <- <-. apply B; auto.
      + eapply A; eauto.
  Qed.

  Lemma VI_jloop y : forall n j s s', entry (e_c s) = Ok y -> j = e_c s mod 32 -> start <= e_c s -> j + Z.of_nat n <= 32 ->
    e_c s + Z.of_nat n <= limit \/ n = 0%nat ->
    VI s -> jloop veq vf t (4 * y) (py_range j (j + Z.of_nat n) 1) s = Ok s' -> VI s' /\ e_block s' = e_block s.
  Proof.
    induction n as [|n IH]; intros j s s' He Hj Hs Hn Hl P H.
    - rewrite py_range_nil in H by lia. injection H as <-. auto.
    - rewrite py_range_cons in H by lia. cbn [jloop] in H.
      destruct (aget (index t) (4 * y + j)) as [w|] eqn:E; [|discriminate]. cbn [bind] in H.
      set (s1 := advance (note veq s (vf w)) 1) in *.
      assert (C1 : e_c s1 = e_c s + 1) by (unfold s1; cbn; rewrite c_note; auto).
      assert (B1 : e_block s1 = e_block s) by (unfold s1, note; cbn; destruct (veq _ _); reflexivity).
      assert (P1 : VI s1).
      { apply VI_note; auto; [lia|]. intros x Hx _. replace x with (e_c s) by lia. exists w. split; auto.
        rewrite reads by lia. rewrite He. cbn [bind]. rewrite <- Hj. exact E. }
      clearbody s1. destruct n as [|n].
      { rewrite py_range_nil in H by lia. injection H as <-. auto. }
      rewrite <- B1. apply (IH (j + 1)); auto; try lia.
      + rewrite C1. unfold entry in *. replace ((e_c s + 1) / 32) with (e_c s / 32) by lia. exact He.
      + replace (j + 1 + Z.of_nat (S n)) with (j + Z.of_nat (S (S n))) by lia. exact H.
  Qed.

  Lemma body_ok i2 s s' : i2 = i0 + (e_c s / 32 - start / 32) -> start <= e_c s ->
    (e_c s mod 32 = 0 \/ e_c s = start) ->
    VI s -> BM s -> i2body veq vf t b limit i2 s = Ok s' ->
    VI s' /\ start <= e_c s' /\ ((limit <= e_c s' /\ limit / 32 <= e_c s / 32) \/ (e_c s' mod 32 = 0 /\ e_c s' / 32 = e_c s / 32 + 1 /\ BM s')).
  Proof.
    intros Hi Hs Ha P B H. unfold i2body in H.
    assert (D32 : (e_c s + 32) / 32 = e_c s / 32 + 1) by (clear; lia).
    assert (M32 : (e_c s + 32) mod 32 = e_c s mod 32) by (clear; lia).
    assert (EE : aget (index t) (b + i2) = entry (e_c s)) by (unfold entry; rewrite Hi; reflexivity).
    rewrite EE in H. destruct (entry (e_c s)) as [y|] eqn:E; [|discriminate]. cbn [bind] in H.
    unfold INDEX_SHIFT in H. rewrite Z.shiftl_mul_pow2 in H by lia. replace (y * 2 ^ 2) with (4 * y) in H by lia.
    rewrite DBL in H.
    destruct ((4 * y =? e_block s) && (e_c s - e_prev s >=? 32)) eqn:E1.
    { (* the same block as the previous one *)
      injection H as <-. destruct B as [B|(B1 & B2 & y' & B3 & B4)]; [lia|].
      assert (y' = y) by lia. subst y'. destruct P as [P1 P2 P3].
      split; [constructor; cbn; auto; [|lia]|].
      - intros x Hx Hl. destruct (Z_lt_le_dec x (e_c s)) as [L|L]; [apply P2; auto; lia|].
        destruct (P2 (x - 32)) as (w & G1 & G2); [lia|lia|]. exists w. split; auto.
        rewrite reads in * by lia. unfold entry in *.
        replace (x / 32) with (e_c s / 32) by lia. replace ((x - 32) / 32) with ((e_c s - 32) / 32) in G1 by lia.
        rewrite E. rewrite B3 in G1. cbn [bind] in *. replace ((x - 32) mod 32) with (x mod 32) in G1 by lia. exact G1.
      - cbn. split; [lia|]. right. split; [lia|]. split; [lia|]. right. cbn. split; [lia|]. split; [lia|].
        exists y. split; [|exact B4]. replace (e_c s + 32 - 32) with (e_c s) by lia. exact E. }
    destruct (4 * y =? dataNullOffset t) eqn:E2.
    { (* the null block *)
      assert (Al : e_c s mod 32 = 0).
      { destruct Ha as [Ha|Ha]; auto. rewrite Ha in *. destruct first_ok as [F|[F|F]]; auto; exfalso; [|lia].
        apply F. rewrite E. f_equal. lia. }
      injection H as <-. split.
      - apply VI_note; [lia|destruct P; constructor; auto|]. cbn. intros x Hx Hl. exists (initialValue t). split; [|reflexivity].
        rewrite reads by lia. unfold entry in *. replace (x / 32) with (e_c s / 32) by lia. rewrite E. cbn [bind].
        replace (4 * y) with (dataNullOffset t) by lia. apply (N_data t NO). lia.
      - cbn [advance e_c]. rewrite c_note. cbn [set_block e_c]. split; [lia|]. right. split; [lia|]. split; [lia|].
        right. cbn [advance e_c]. rewrite c_note. cbn [set_block e_c]. split; [lia|]. split; [lia|].
        exists y. split; [replace (e_c s + 32 - 32) with (e_c s) by lia; exact E|].
        unfold note. cbn. destruct (veq _ _); reflexivity. }
    rewrite land31 in H. cbn [set_block e_c] in H.
    destruct (Z_le_gt_dec limit (e_c s)) as [L|L].
    { rewrite py_range_nil in H by lia. injection H as <-. split; [destruct P; constructor; auto|]. cbn. split; [lia|]. left. lia. }
    set (n := Z.min (32 - e_c s mod 32) (limit - e_c s)) in *.
    assert (Hn : 0 < n) by lia.
    replace (Z.min 32 (e_c s mod 32 + limit - e_c s)) with (e_c s mod 32 + Z.of_nat (Z.to_nat n)) in H by lia.
    pose proof (c_jloop veq vf veq_spec t _ _ _ _ H) as Hc. rewrite zlen_range in Hc. cbn [set_block e_c] in Hc.
    apply (VI_jloop y) in H; cbn [set_block e_c]; auto; [|lia|lia|destruct P; constructor; auto].
    destruct H as [P' B']. cbn [set_block e_block] in B'. split; auto. split; [lia|].
    assert (Hc' : e_c s' = e_c s + n) by lia. clear Hc.
    destruct (Z_lt_ge_dec (limit - e_c s) (32 - e_c s mod 32)); [left; lia|].
    right. assert (e_c s' = (e_c s / 32 + 1) * 32) by lia.
    assert (Q : e_c s' / 32 = e_c s / 32 + 1) by lia.
    split; [lia|]. split; [lia|]. right. split; [lia|]. split; [lia|].
    exists y. split; [|exact B']. unfold entry in *. replace ((e_c s' - 32) / 32) with (e_c s / 32) by lia. exact E.
  Qed.

  Lemma loop_ok i1 : start / 32 + (i1 - i0) = limit / 32 ->
    forall n i2 s s', n = Z.to_nat (i1 - i2) -> i0 <= i2 <= i1 -> i2 = i0 + (e_c s / 32 - start / 32) -> start <= e_c s ->
    (e_c s mod 32 = 0 \/ e_c s = start) -> VI s -> BM s ->
    i2loop veq vf t b limit (py_range i2 (i1 + 1) 1) s = Ok s' ->
    VI s' /\ limit <= e_c s'.
  Proof.
    intros Hlin. induction n as [|n IH]; intros i2 s s' Hn Hi Hc Hs Ha P B H;
      rewrite py_range_cons in H by lia; cbn [i2loop] in H;
      destruct (i2body veq vf t b limit i2 s) as [s1|] eqn:E; try discriminate; cbn [bind] in H;
      pose proof (body_ok _ _ _ Hc Hs Ha P B E) as (P1 & Hs1 & K).
    - rewrite py_range_nil in H by lia. injection H as <-. split; auto.
      destruct K as [K|(K1 & K2 & K3)]; [tauto|]. lia.
    - destruct K as [K|(K1 & K2 & K3)].
      + lia.
      + apply (IH (i2 + 1) s1 s'); auto; lia.
  Qed.
End W.

Lemma supp_lin s l : (l - 1) / 2048 = s / 2048 -> s < l ->
  s / 32 + ((if s / 2048 =? l / 2048 then l / 32 mod 64 else 64) - s / 32 mod 64) = l / 32 /\
  s / 32 mod 64 <= (if s / 2048 =? l / 2048 then l / 32 mod 64 else 64).
Proof.
  intros H1 H2.
  assert (A1 : s / 2048 = s / 32 / 64) by (rewrite Z.div_div by lia; reflexivity).
  assert (A2 : l / 2048 = l / 32 / 64) by (rewrite Z.div_div by lia; reflexivity).
  assert (A3 : s / 32 <= l / 32) by (apply Z.div_le_mono; lia).
  destruct (s / 2048 =? l / 2048) eqn:E.
  - assert (A4 : s / 32 / 64 = l / 32 / 64) by lia.
    pose proof (Z.div_mod (s / 32) 64 ltac:(lia)). pose proof (Z.div_mod (l / 32) 64 ltac:(lia)). clear - A3 A4 H H0. lia.
  - assert (L : l = 2048 * (s / 2048 + 1)) by lia.
    assert (L2 : l / 32 = 64 * (s / 2048 + 1)) by (rewrite L; clear; lia).
    pose proof (Z.div_mod (s / 32) 64 ltac:(lia)). pose proof (Z.mod_pos_bound (s / 32) 64 ltac:(lia)). clear - A1 L2 H H0. lia.
Qed.

(** a request inside one 2048 window of the trie, or wholly in its high part *)
Definition one_window (t : utrie2) (start limit : Z) : Prop :=
  (limit <= start + 2048 /\ (limit <= 0xD800 \/ (0xE000 <= start /\ limit <= 0x10000))) \/
  (0x10000 <= start /\ (limit - 1) / 2048 = start / 2048 /\ limit <= 0x10FFFF /\ start < highStart t) \/
  (highStart t <= start /\ limit <= 0x10FFFF).

(** an unaligned start is allowed if its data block is not the null block *)
Definition block_at (t : utrie2) (c : Z) : res Z :=
  let* i := indexFromCodePoint t (indexLength t) c in Ok (i - c mod 32).
Definition start_ok (t : utrie2) (start : Z) : Prop :=
  start mod 32 = 0 \/ block_at t start <> Ok (dataNullOffset t).

Section WW.
  Context {V : Type} (veq : V -> V -> bool) (vf : Z -> V).
  Hypothesis veq_spec : forall a b, veq a b = true <-> a = b.
  Variable t : utrie2.
  Variables start limit : Z.
  Hypothesis NO : nulls_ok t.
  Hypothesis start0 : 0 <= start < limit.
  Hypothesis one : one_window t start limit.
  Hypothesis sok : start_ok t start.
  Hypothesis high_ok : 0x10000 <= highStart t /\ highStart t mod 2048 = 0.

  Let s0 := mkEst start start (vf 0) (-1) (-1) (@nil (Z * Z * V)).

  Lemma raw_eq off c : indexRaw t off c = (let* y := aget (index t) (off + c / 32) in Ok (4 * y + c mod 32)).
  Proof.
    unfold indexRaw, SHIFT_2, INDEX_SHIFT. rewrite Z.shiftr_div_pow2 by lia. change (2 ^ 5) with 32.
    destruct (aget _ _) as [y|]; cbn [bind]; auto. rewrite land31. rewrite Z.shiftl_mul_pow2 by lia.
    do 2 f_equal. lia.
  Qed.

  Definition agrees_below (rs : list (Z * Z * V)) : Prop :=
    forall a b v x, In (a, b, v) rs -> a <= x < b -> x < limit -> holds vf t x v.

  Lemma finish_agrees s rs : VI vf t start limit s -> limit <= e_c s ->
    finish veq vf t limit s = Ok rs -> agrees_below rs.
  Proof.
    intros [A B C] Hc H. unfold finish in H.
    assert (G : forall out p v, out = e_out s -> p = e_prev s -> v = e_value s ->
      agrees_below (rev (out_before (mkEst limit p v 0 0 out)))).
    { intros out p v -> -> ->. intros a b w x Hi Hx Hl. apply in_rev in Hi.
      unfold out_before in Hi. cbn [e_prev e_c e_value e_out] in Hi.
      destruct (e_prev s <? limit) eqn:E; [destruct Hi as [Hi|Hi]|].
      - injection Hi as <- <- <-. apply B; auto. lia.
      - eapply A; eauto.
      - eapply A; eauto. }
    destruct (e_c s >? limit) eqn:E1.
    - cbn [bind] in H. injection H as <-. apply G; reflexivity.
    - destruct (e_c s <? limit) eqn:E2; [lia|]. cbn [bind] in H. injection H as <-.
      replace (out_before s) with (out_before (mkEst limit (e_prev s) (e_value s) 0 0 (e_out s))); [apply G; reflexivity|].
      unfold out_before. cbn. replace (e_c s) with limit by lia. reflexivity.
  Qed.

  Lemma VI0 : VI vf t start limit s0.
  Proof. constructor; cbn; [intros; contradiction|intros; lia|lia]. Qed.

  (** one pass of the outer loop *)
  Lemma outer_window s1 : start < highStart t -> outer_body veq vf t limit s0 = Ok s1 ->
    VI vf t start limit s1 /\ limit <= e_c s1.
  Proof.
    intros Hh H. unfold outer_body in H. change (e_c s0) with start in H.
    destruct (choose t limit start) as [[b tl]|] eqn:EC; [|discriminate]. cbn [bind] in H. rewrite CPI in H.
    change (e_prev s0) with start in H. replace (start - start >=? 2048) with false in H by lia. rewrite andb_false_r in H.
    destruct (i2bounds start b tl) as [i0 i1] eqn:EB.
    pose proof (window_of veq vf veq_spec _ _ _ _ _ _ _ start0 EC EB) as W.
    (* the facts about the window *)
    assert (K : tl = limit /\ start / 32 + (i1 - i0) = limit / 32 /\ i0 <= i1 /\
      (forall x, start <= x < limit -> indexFromCodePoint t (indexLength t) x =
         (let* y := entry t start b i0 x in Ok (4 * y + x mod 32))) /\
      (b = index2NullOffset t -> start mod 32 = 0 -> forall x, start <= x < limit -> 0 <= i0 + (x / 32 - start / 32) < 64)).
    { destruct W as [W1 W2 Wb Wt Wi0 Wi1 | W1 Wb Wt Wi0 Wi1 | W1 Wb Wt Wi0 Wi1 Wi1' | W1 Wb Wt Wi0 Wi1].
      - destruct one as [O|[O|O]]; [|lia|lia].
        assert (tl = limit) by lia. split; auto. split; [lia|]. split; [lia|]. split.
        + intros x Hx. unfold indexFromCodePoint, entry.
          replace (b + (i0 + (x / 32 - start / 32))) with (0 + x / 32) by lia. rewrite <- raw_eq.
          destruct (x <? 0xD800) eqn:E1; auto. destruct (x <=? 0xFFFF) eqn:E2; [|lia].
          destruct (x >=? 0xDC00) eqn:E3; [reflexivity|lia].
        + intros; lia.
      - destruct one as [O|[O|O]]; lia.
      - destruct one as [O|[O|O]]; lia.
      - destruct one as [O|[O|O]]; [lia| |lia].
        assert (TL : tl = limit) by lia. clear Wt. split; auto. subst tl. split; [|split; [|split]].
        + rewrite Wi1, Wi0. apply supp_lin; lia.
        + rewrite Wi1, Wi0. apply supp_lin; lia.
        + intros x Hx. assert (Hb : x / 2048 = start / 2048) by lia.
          unfold indexFromCodePoint, entry.
          destruct (x <? 0xD800) eqn:E1; [lia|]. destruct (x <=? 0xFFFF) eqn:E2; [lia|].
          destruct (x >=? 0x10FFFF) eqn:E3; [lia|]. destruct (x >=? highStart t) eqn:E4; [lia|].
          unfold indexFromSupp. change (INDEX_1_OFFSET - OMITTED_BMP_INDEX_1_LENGTH) with 2080.
          rewrite (shr11 veq vf veq_spec), (shr5 veq vf veq_spec), (land63 veq vf veq_spec), Hb, Wb. cbn [bind].
          replace (b + (i0 + (x / 32 - start / 32))) with (b + (x / 32) mod 64) by lia.
          destruct (aget (index t) (b + (x / 32) mod 64)) as [y|]; cbn [bind]; auto.
          rewrite land31. unfold INDEX_SHIFT. rewrite Z.shiftl_mul_pow2 by lia. do 2 f_equal. lia.
        + intros; lia. }
    destruct K as (-> & K1 & K2 & K3 & K4).
    assert (reads : forall x, start <= x < limit -> get t x = (let* y := entry t start b i0 x in aget (index t) (4 * y + x mod 32))).
    { intros x Hx. unfold get. rewrite K3 by auto. destruct (entry t start b i0 x); reflexivity. }
    assert (first : start mod 32 = 0 \/ entry t start b i0 start <> Ok (dataNullOffset t / 4) \/ dataNullOffset t mod 4 <> 0).
    { destruct sok as [Q|Q]; auto. destruct (Z.eq_dec (dataNullOffset t mod 4) 0); auto. right. left. intros E. apply Q.
      unfold block_at. rewrite K3 by lia. rewrite E. cbn [bind]. f_equal. lia. }
    destruct (b =? index2NullOffset t) eqn:EN.
    - assert (b = index2NullOffset t) by lia. subst b.
      assert (Al : start mod 32 = 0).
      { destruct first as [F|F]; auto. exfalso.
        destruct W as [W1 W2 Wb Wt Wi0 Wi1 | W1 Wb Wt Wi0 Wi1 | W1 Wb Wt Wi0 Wi1 Wi1' | W1 Wb Wt Wi0 Wi1];
          (destruct (N_i2 t NO i0) as (y & Y1 & Y2); [lia|]; unfold entry in F;
           replace (i0 + (start / 32 - start / 32)) with i0 in F by lia; rewrite Y1 in F;
           destruct F as [F|F]; [apply F; f_equal; lia|lia]). }
      assert (G : forall x, start <= x < limit -> holds vf t x (initV vf t)).
      { intros x Hx. exists (initialValue t). split; auto. rewrite reads by auto. unfold entry.
        destruct (N_i2 t NO (i0 + (x / 32 - start / 32)) (K4 eq_refl Al x Hx)) as (y & Y1 & Y2). rewrite Y1. cbn [bind].
        rewrite Y2. apply (N_data t NO). lia. }
      injection H as <-.
      assert (L : limit <= start + 2048) by (destruct one as [O|[O|O]]; lia).
      assert (P : VI vf t start limit (advance (note veq (set_i2block s0 (index2NullOffset t)) (initV vf t)) 2048)).
      { apply (VI_note veq vf veq_spec); [lia| |].
        - pose proof VI0 as [P1 P2 P3]. constructor; auto.
        - cbn. intros x Hx Hl. apply G. lia. }
      change (e_value (set_i2block s0 (index2NullOffset t))) with (vf 0).
      destruct (veq (vf 0) (initV vf t)) eqn:E.
      + unfold note in P. apply veq_spec in E. change (e_value (set_i2block s0 (index2NullOffset t))) with (vf 0) in P. rewrite E in P.
        replace (veq (initV vf t) (initV vf t)) with true in P by (symmetry; apply veq_spec; reflexivity).
        split; [exact P|]. cbn. lia.
      + split; [|cbn; rewrite c_note; cbn; lia]. destruct P as [P1 P2 P3]. constructor; auto.
    - eapply (loop_ok veq vf veq_spec t start limit NO b i0 reads start0 first i1 K1 (Z.to_nat (i1 - i0)) i0); try exact H; auto; cbn; try lia.
      + pose proof VI0 as [P1 P2 P3]. constructor; auto.
      + left. reflexivity.
  Qed.

  Lemma enumerator_agrees_below rs : enumerator veq vf t limit start = Ok rs -> agrees_below rs.
  Proof.
    unfold enumerator. rewrite run_run_nat. fold s0.
    replace (Pos.to_nat (Z.to_pos (limit - start + 1))) with (S (S (Z.to_nat (limit - start - 1)))) by lia.
    cbn [run_nat]. unfold outer_step at 1. change (e_c s0) with start.
    destruct ((start <? limit) && (start <? highStart t)) eqn:E.
    - destruct (outer_body veq vf t limit s0) as [s1|e] eqn:EB; [|discriminate].
      destruct (outer_window s1 ltac:(lia) EB) as [P L].
      unfold outer_step at 1. destruct (e_c s1 <? limit) eqn:E1; [lia|]. cbn [andb].
      apply finish_agrees; auto.
    - intros H. unfold finish in H. change (e_c s0) with start in H.
      destruct (start >? limit) eqn:E1; [lia|]. destruct (start <? limit) eqn:E2; [|lia].
      destruct (aget (index t) (highValueIndex t)) as [w|] eqn:E3; [|discriminate]. cbn [bind] in H. injection H as <-.
      assert (P : VI vf t start limit (advance (note veq s0 (vf w)) (limit - start))).
      { apply (VI_note veq vf veq_spec); [lia|apply VI0|]. cbn. intros x Hx Hl. exists w. split; auto.
        unfold get, indexFromCodePoint. destruct one as [O|[O|O]]; [lia|lia|].
        destruct (x <? 0xD800) eqn:Q1; [lia|]. destruct (x <=? 0xFFFF) eqn:Q2; [lia|].
        destruct (x >=? 0x10FFFF) eqn:Q3; [lia|]. destruct (x >=? highStart t) eqn:Q4; [|lia]. cbn [bind]. exact E3. }
      eapply finish_agrees; [exact P| |].
      + cbn. rewrite c_note. cbn. lia.
      + unfold finish. cbn [advance e_c e_prev e_value e_out]. rewrite c_note. change (e_c s0) with start.
        replace (start + (limit - start)) with limit by lia.
        destruct (limit >? limit) eqn:Q1; [lia|]. destruct (limit <? limit) eqn:Q2; [lia|].
        unfold advance. rewrite c_note. change (e_c s0) with start.
        replace (start + (limit - start)) with limit by lia. reflexivity.
  Qed.

  Lemma tiles_in (rs : list (Z * Z * V)) : forall lo hi a b v, tiles lo rs hi -> In (a, b, v) rs -> lo <= a /\ b <= hi.
  Proof.
    assert (LE : forall (l : list (Z * Z * V)) lo hi, tiles lo l hi -> lo <= hi).
    { induction l as [|[[p q] w] r IH]; intros lo hi H; simpl in H; [lia|]. destruct H as (-> & ? & H). apply IH in H. lia. }
    induction rs as [|[[p q] w] r IH]; intros lo hi a b v H Hi; [contradiction|].
    simpl in H. destruct H as (-> & ? & H). destruct Hi as [Hi|Hi].
    - injection Hi as <- <- <-. apply LE in H. lia.
    - destruct (IH _ _ _ _ _ H Hi). lia.
  Qed.

  Theorem enumerator_values rs : enumerator veq vf t limit start = Ok rs ->
    partition start rs limit /\ agrees vf t rs.
  Proof.
    intros H.
    assert (P : partition start rs limit).
    { destruct (Z_le_gt_dec (highStart t) start) as [Hh|Hh].
      - revert H. unfold enumerator. rewrite run_run_nat. fold s0.
        replace (Pos.to_nat (Z.to_pos (limit - start + 1))) with (S (Z.to_nat (limit - start))) by lia.
        cbn [run_nat]. unfold outer_step at 1. change (e_c s0) with start.
        replace (start <? highStart t) with false by lia. rewrite andb_false_r. intros H.
        eapply (finish_partition veq vf veq_spec t start limit); [| | |exact H]; cbn; try lia.
        constructor; cbn; auto.
      - apply (enumerator_partition veq vf veq_spec t start limit); auto;
          destruct one as [O|[O|O]]; lia. }
    split; auto. intros a b v x Hi Hx. eapply enumerator_agrees_below; eauto.
    destruct P as [P _]. destruct (tiles_in _ _ _ _ _ _ P Hi). lia.
  Qed.
End WW.
