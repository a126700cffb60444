(** * UTrie2.enumerator over many windows of the BMP, below or above the surrogates: when the values are right. *)
From Coq Require Import ZArith List Bool Lia ZifyBool.
From Verif Require Import Py Arr UnicodeSet UnicodeSetViews Utilities UTrie2 UtilitiesFacts UTrie2Enum UTrie2EnumVal.
Import ListNotations.
Open Scope Z_scope.
Ltac Zify.zify_post_hook ::= Z.to_euclidean_division_equations.

(** ** The specification *)
Section Spec.
  Context {V : Type} (vf : Z -> V) (t : utrie2) (limit : Z).

  (** the index entry of code point [x] of the BMP that is no lead surrogate: its data block *)
  Definition entry_of (x : Z) : res Z := aget (index t) (x / 32).
  (** the 32 code points before [b] have the value [v] *)
  Definition level (b : Z) (v : V) : Prop := forall x, b - 32 <= x < b -> holds vf t x v.
  (** the block at [b] is the null block, or the same as the one before with one value *)
  Definition joined (b : Z) : Prop :=
    exists y, entry_of b = Ok y /\ (4 * y = dataNullOffset t \/ (entry_of (b - 32) = Ok y /\ exists v, level b v)).
  (** a block that differs from the one before, which has one value throughout *)
  Definition hidden (b : Z) : Prop := exists v, level b v /\ exists x, b <= x < b + 32 /\ x < limit /\ ~ holds vf t x v.
  (** No window, from the one that starts at [w] on, ends where it hides a block. *)
  Inductive clean : Z -> Prop :=
  | clean_end w : limit <= w + 2048 -> clean w
  | clean_joined w : w + 2048 < limit -> joined (w + 2048) -> clean (w + 2080) -> clean w
  | clean_next w : w + 2048 < limit -> ~ joined (w + 2048) -> ~ hidden (w + 2048) -> clean (w + 2048) -> clean w.
End Spec.

Section M.
  Context {V : Type} (veq : V -> V -> bool) (vf : Z -> V).
  Hypothesis veq_spec : forall a b, veq a b = true <-> a = b.
  Variable t : utrie2.
  Variables start limit : Z.
  Hypothesis NO : nulls_ok t.
  Hypothesis bounds : 0 <= start < limit /\ (limit <= 0xD800 \/ 0xE000 <= start /\ limit <= 0x10000).
  Hypothesis aligned : start mod 32 = 0.
  Hypothesis not_null : limit <= 32 * index2NullOffset t \/ index2NullOffset t < 0.
  Hypothesis high_ok : limit <= highStart t.
  Local Notation est := (est (V := V)).
  Local Notation VI := (VI vf t start limit).
  Local Notation PI := (PI start).
  Local Notation joined := (joined vf t).
  Local Notation hidden := (hidden vf t limit).
  Local Notation clean := (clean vf t limit).
  Local Notation level := (level vf t).
  Local Notation entry_of := (entry_of t).

  Lemma reads x : start <= x < limit -> get t x = (let* y := entry_of x in aget (index t) (4 * y + x mod 32)).
  Proof.
    intros H. assert (R : indexFromCodePoint t (indexLength t) x = indexRaw t 0 x).
    { unfold indexFromCodePoint. destruct (Z.ltb_spec x 0xD800); [reflexivity|]. replace (x <=? 0xFFFF) with true by lia. replace (x >=? 0xDC00) with true by lia. reflexivity. }
    unfold get. rewrite R, (raw_eq t 0 x).
    change (0 + x / 32) with (x / 32). unfold UTrie2EnumMany.entry_of. destruct (aget (index t) (x / 32)); reflexivity.
  Qed.
  Lemma entry_same x y : x / 32 = y / 32 -> entry_of x = entry_of y.
  Proof. unfold UTrie2EnumMany.entry_of. intros ->. reflexivity. Qed.

  (** leaving out the block at [c] is right *)
  Definition SK (s : est) : Prop := forall y, entry_of (e_c s) = Ok y -> e_block s = 4 * y -> e_c s - e_prev s >= 32 ->
    forall x, e_c s <= x < e_c s + 32 -> x < limit -> holds vf t x (e_value s).
  (** the block before [c] is the one remembered *)
  Definition EB (s : est) : Prop := start + 32 <= e_c s /\ exists y, entry_of (e_c s - 32) = Ok y /\ e_block s = 4 * y.

  Lemma EB_SK s : e_c s mod 32 = 0 -> VI s -> EB s -> SK s.
  Proof.
    intros A [P1 P2 P3] (L & y' & B1 & B2) y E1 E2 E3 x Hx Hl. assert (y' = y) by lia. subst y'.
    destruct (P2 (x - 32)) as (w & G1 & G2); [lia|lia|]. exists w. split; auto.
    rewrite reads in * by lia. rewrite (entry_same x (e_c s)) by lia. rewrite (entry_same (x - 32) (e_c s - 32)) in G1 by lia.
    rewrite E1. rewrite B1 in G1. cbn [bind] in *. replace ((x - 32) mod 32) with (x mod 32) in G1 by lia. exact G1.
  Qed.

  Lemma holds_fun x v w : holds vf t x v -> holds vf t x w -> v = w.
  Proof. intros (a & A & <-) (b & B & <-). congruence. Qed.

  (** 32 code points with one value before [c] are in one run *)
  Lemma level_run s v : start + 32 <= e_c s -> e_c s <= limit -> VI s -> PI s -> level (e_c s) v -> e_c s - e_prev s >= 32.
  Proof.
    intros L0 LL [P1 P2 P3] [Q1 Q2 Q3] Lv. destruct (Z_le_gt_dec 32 (e_c s - e_prev s)) as [G|G]; [lia|exfalso].
    destruct (e_out s) as [|[[p q] w] r] eqn:Eo.
    - cbn in Q1. lia.
    - cbn [btiles] in Q1. destruct Q1 as (-> & Q1 & _).
      assert (A : holds vf t (e_prev s - 1) w) by (apply (P1 p (e_prev s)); [left; reflexivity|lia|lia]).
      assert (C : e_prev s < e_c s) by (destruct Q3 as [Q3|[Q3 _]]; [exact Q3|discriminate]).
      assert (B : holds vf t (e_prev s) (e_value s)) by (apply P2; lia).
      pose proof (holds_fun _ _ _ A (Lv (e_prev s - 1) ltac:(lia))). pose proof (holds_fun _ _ _ B (Lv (e_prev s) ltac:(lia))). congruence.
  Qed.
  Lemma run_level s : e_c s <= limit -> VI s -> e_c s - e_prev s >= 32 -> level (e_c s) (e_value s).
  Proof. intros L [P1 P2 P3] G x Hx. apply P2; lia. Qed.

  (** the values of one data block *)
  Lemma many_jloop y : forall n j s s', entry_of (e_c s) = Ok y -> j = e_c s mod 32 -> start <= e_c s -> j + Z.of_nat n <= 32 ->
    e_c s + Z.of_nat n <= limit \/ n = 0%nat ->
    VI s -> jloop veq vf t (4 * y) (py_range j (j + Z.of_nat n) 1) s = Ok s' -> VI s' /\ e_block s' = e_block s.
  Proof.
    induction n as [|n IH]; intros j s s' He Hj Hs Hn Hl P H.
    - rewrite py_range_nil in H by lia. injection H as <-. auto.
    - rewrite py_range_cons in H by lia. cbn [jloop] in H.
      destruct (aget (index t) (4 * y + j)) as [w|] eqn:E; [|discriminate]. cbn [bind] in H.
      set (s1 := advance (note veq s (vf w)) 1) in *.
      assert (C1 : e_c s1 = e_c s + 1) by (unfold s1; cbn; rewrite c_note; auto).
      assert (B1 : e_block s1 = e_block s) by (unfold s1, note; cbn; destruct (veq _ _); reflexivity).
      assert (P1 : VI s1).
      { apply (VI_note veq vf veq_spec); auto; [lia|]. intros x Hx _. replace x with (e_c s) by lia. exists w. split; auto.
        rewrite reads by lia. rewrite He. cbn [bind]. rewrite <- Hj. exact E. }
      clearbody s1. destruct n as [|n].
      { rewrite py_range_nil in H by lia. injection H as <-. auto. }
      rewrite <- B1. apply (IH (j + 1)); auto; try lia.
      + rewrite C1. rewrite (entry_same _ (e_c s)) by lia. exact He.
      + replace (j + 1 + Z.of_nat (S n)) with (j + Z.of_nat (S (S n))) by lia. exact H.
  Qed.

  (** one data block of a window that ends at [tl] *)
  Lemma many_body w tl s s' : w mod 32 = 0 -> w <= e_c s <= tl -> start <= e_c s -> tl <= limit -> e_c s mod 32 = 0 ->
    VI s -> SK s -> i2body veq vf t (w / 32) tl (e_c s / 32 - w / 32) s = Ok s' ->
    VI s' /\ exists y, entry_of (e_c s) = Ok y /\
    ((e_c s < tl /\ e_block s' = 4 * y /\ (e_c s + 32 <= tl -> e_c s' = e_c s + 32) /\ tl <= e_c s' /\ tl - e_c s < 32) \/
     (e_c s + 32 <= tl /\ e_block s' = 4 * y /\ e_c s' = e_c s + 32) \/
     (e_c s = tl /\ e_block s' = 4 * y /\ e_c s' = e_c s + 32 /\ (4 * y = dataNullOffset t \/ (4 * y = e_block s /\ e_c s - e_prev s >= 32))) \/
     (e_c s = tl /\ s' = set_block s (4 * y) /\ 4 * y <> dataNullOffset t /\ ~ (4 * y = e_block s /\ e_c s - e_prev s >= 32))).
  Proof.
    intros Wm Hc Hs Htl Ha P K H. unfold i2body in H.
    replace (w / 32 + (e_c s / 32 - w / 32)) with (e_c s / 32) in H by lia.
    change (aget (index t) (e_c s / 32)) with (entry_of (e_c s)) in H.
    destruct (entry_of (e_c s)) as [y|] eqn:E; [|discriminate]. cbn [bind] in H.
    unfold INDEX_SHIFT in H. rewrite Z.shiftl_mul_pow2 in H by lia. replace (y * 2 ^ 2) with (4 * y) in H by lia.
    rewrite DBL in H.
    assert (G : forall s1, e_c s1 = e_c s + 32 -> e_block s1 = 4 * y -> (4 * y = dataNullOffset t \/ (4 * y = e_block s /\ e_c s - e_prev s >= 32)) ->
      exists y0, Ok y = Ok y0 /\
      ((e_c s < tl /\ e_block s1 = 4 * y0 /\ (e_c s + 32 <= tl -> e_c s1 = e_c s + 32) /\ tl <= e_c s1 /\ tl - e_c s < 32) \/
       (e_c s + 32 <= tl /\ e_block s1 = 4 * y0 /\ e_c s1 = e_c s + 32) \/
       (e_c s = tl /\ e_block s1 = 4 * y0 /\ e_c s1 = e_c s + 32 /\ (4 * y0 = dataNullOffset t \/ (4 * y0 = e_block s /\ e_c s - e_prev s >= 32))) \/
       (e_c s = tl /\ s1 = set_block s (4 * y0) /\ 4 * y0 <> dataNullOffset t /\ ~ (4 * y0 = e_block s /\ e_c s - e_prev s >= 32)))).
    { intros s1 G1 G2 G3. exists y. split; [reflexivity|]. clear - G1 G2 G3 Hc.
      destruct (Z_le_gt_dec (e_c s + 32) tl); [right; left; auto|].
      destruct (Z.eq_dec (e_c s) tl); [right; right; left; auto|left]. repeat split; auto; lia. }
    destruct ((4 * y =? e_block s) && (e_c s - e_prev s >=? 32)) eqn:E1.
    { injection H as <-. assert (E2 : e_block s = 4 * y) by (clear - E1; lia). assert (E3 : e_c s - e_prev s >= 32) by (clear - E1; lia).
      split; [|apply G; auto; right; auto].
      pose proof (K y E E2 E3) as K1. destruct P as [P1 P2 P3]. constructor; cbn; auto; [|lia].
      intros x Hx Hl. destruct (Z_lt_le_dec x (e_c s)) as [L|L]; [apply P2; auto; lia|]. apply K1; auto. lia. }
    destruct (4 * y =? dataNullOffset t) eqn:E2.
    { injection H as <-. split.
      - apply (VI_note veq vf veq_spec); [lia|destruct P; constructor; auto|]. cbn. intros x Hx Hl. exists (initialValue t). split; [|reflexivity].
        rewrite reads by lia. rewrite (entry_same x (e_c s)) by lia. rewrite E. cbn [bind].
        replace (4 * y) with (dataNullOffset t) by lia. apply (N_data t NO). lia.
      - apply G; [cbn [advance e_c]; rewrite c_note; reflexivity| |left; lia].
        unfold note. cbn. destruct (veq _ _); reflexivity. }
    rewrite land31 in H. cbn [set_block e_c] in H. rewrite Ha in H.
    destruct (Z_le_gt_dec tl (e_c s)) as [L|L].
    { rewrite py_range_nil in H by lia. injection H as <-. split; [destruct P; constructor; auto|]. exists y. split; [reflexivity|].
      right. right. right. split; [lia|]. split; [reflexivity|]. split; [lia|lia]. }
    set (n := Z.min 32 (tl - e_c s)) in *.
    assert (Hn : 0 < n) by lia.
    replace (Z.min 32 (0 + tl - e_c s)) with (0 + Z.of_nat (Z.to_nat n)) in H by lia.
    pose proof (c_jloop veq vf veq_spec t _ _ _ _ H) as Hc'. rewrite zlen_range in Hc'. cbn [set_block e_c] in Hc'.
    apply (many_jloop y) in H; cbn [set_block e_c]; auto; [|lia|lia|destruct P; constructor; auto].
    destruct H as [P' B']. cbn [set_block e_block] in B'. split; auto. exists y. split; [reflexivity|].
    destruct (Z_le_gt_dec (e_c s + 32) tl); [right; left|left]; repeat split; auto; lia.
  Qed.

  (** what a whole window does *)
  Definition after (tl : Z) (s : est) : Prop :=
    (tl = limit /\ limit <= e_c s) \/
    (tl < limit /\ e_c s = tl + 32 /\ EB s /\ joined tl) \/
    (tl < limit /\ e_c s = tl /\ ~ joined tl /\ exists y, entry_of tl = Ok y /\ e_block s = 4 * y).

  Lemma many_loop w tl : w mod 32 = 0 -> start <= w -> w < tl <= limit -> tl = limit \/ tl = w + 2048 ->
    forall n s s', Z.of_nat n = tl / 32 - e_c s / 32 -> w <= e_c s <= tl -> e_c s mod 32 = 0 -> VI s -> PI s -> EB s \/ (e_c s = w /\ SK s) ->
    i2loop veq vf t (w / 32) tl (py_range (e_c s / 32 - w / 32) (tl / 32 - w / 32 + 1) 1) s = Ok s' ->
    VI s' /\ PI s' /\ after tl s'.
  Proof.
    intros Wm Ws Wt Wk. induction n as [|n IH]; intros s s' Hn Hc Ha P Q K H;
      rewrite py_range_cons in H by lia; cbn [i2loop] in H;
      destruct (i2body veq vf t (w / 32) tl (e_c s / 32 - w / 32) s) as [s1|] eqn:E; try discriminate; cbn [bind] in H;
      assert (K1 : SK s) by (destruct K as [K|[_ K]]; [apply EB_SK; auto|exact K]);
      pose proof (PI_i2body veq vf veq_spec t start _ _ _ _ _ Q E) as Q1;
      destruct (many_body w tl s s1 Wm Hc ltac:(lia) ltac:(lia) Ha P K1 E) as (P1 & y & Y & C).
    - rewrite py_range_nil in H by lia. injection H as <-. split; auto. split; auto.
      destruct Wk as [Wk|Wk].
      { left. split; auto. destruct C as [C|[C|[C|C]]]; [lia|lia|lia|]. destruct C as (C1 & -> & _). cbn. lia. }
      assert (El : e_c s = tl) by lia. destruct (Z.eq_dec tl limit) as [L|L].
      { left. split; auto. destruct C as [C|[C|[C|C]]]; [lia|lia|lia|]. destruct C as (C1 & -> & _). cbn. lia. }
      destruct K as [K|[K _]]; [|lia]. destruct K as (K0 & y' & Y' & B').
      destruct C as [C|[C|[C|C]]]; [lia|lia| |].
      + destruct C as (C1 & C2 & C3 & C4). right. left. split; [lia|]. split; [lia|]. split.
        * split; [lia|]. exists y. split; [|exact C2]. replace (e_c s1 - 32) with (e_c s) by lia. exact Y.
        * exists y. rewrite El in *. split; auto. destruct C4 as [C4|[C4 C5]]; [left; exact C4|right].
          split; [rewrite Y'; f_equal; lia|]. exists (e_value s). rewrite <- El. apply run_level; auto; lia.
      + destruct C as (C1 & -> & C3 & C4). right. right. split; [lia|]. split; [cbn; lia|]. split.
        * intros (z & Z1 & Z2). rewrite <- El, Y in Z1. injection Z1 as <-. destruct Z2 as [Z2|[Z2 (v & Z3)]]; [lia|].
          rewrite <- El, Y' in Z2. injection Z2 as ->. apply C4. split; [lia|].
          rewrite <- El in Z3. apply (level_run s v); auto; lia.
        * exists y. split; [rewrite <- El; exact Y|reflexivity].
    - assert (El : e_c s + 32 <= tl) by lia.
      assert (C' : e_block s1 = 4 * y /\ e_c s1 = e_c s + 32).
      { destruct C as [C|[C|[C|C]]]; try lia. }
      destruct C' as [C1 C2].
      apply (IH s1 s'); auto; try lia.
      + left. split; [lia|]. exists y. split; [|exact C1]. replace (e_c s1 - 32) with (e_c s) by lia. exact Y.
      + replace (e_c s1 / 32 - w / 32) with (e_c s / 32 - w / 32 + 1) by lia. exact H.
  Qed.

  Lemma choose_bmp c : start <= c < limit -> choose t limit c = Ok (c / 32, Z.min (c + 2048) limit).
  Proof.
    intros H. unfold choose. rewrite CPI. replace (c <=? 0xFFFF) with true by lia.
    rewrite (isSurr_iff veq vf veq_spec) by lia. replace ((0xD800 <=? c) && (c <=? 0xDFFF)) with false by lia. cbn [negb].
    rewrite (shr5 veq vf veq_spec). replace (Z.min (c + 2048) limit >? 0x10000) with false by lia. reflexivity.
  Qed.
  Lemma bounds_bmp c tl : start <= c < limit -> c <= tl -> i2bounds c (c / 32) tl = (0, tl / 32 - c / 32).
  Proof.
    intros H L. unfold i2bounds. replace (c <=? 0xFFFF) with true by lia. rewrite (shr5 veq vf veq_spec).
    replace (tl / 32 - c / 32 <? 0) with false by lia. reflexivity.
  Qed.
  Lemma outer_bmp s : start <= e_c s < limit -> outer_body veq vf t limit s =
    i2loop veq vf t (e_c s / 32) (Z.min (e_c s + 2048) limit)
      (py_range 0 (Z.min (e_c s + 2048) limit / 32 - e_c s / 32 + 1) 1) (set_i2block s (e_c s / 32)).
  Proof.
    intros H. unfold outer_body. rewrite choose_bmp by lia. cbn [bind]. replace (e_c s <=? 0xFFFF) with true by lia. cbn [negb andb].
    replace (e_c s / 32 =? index2NullOffset t) with false by lia. rewrite bounds_bmp by lia. reflexivity.
  Qed.

  Lemma many_outer s s' : start <= e_c s < limit -> e_c s mod 32 = 0 -> VI s -> PI s -> SK s -> outer_body veq vf t limit s = Ok s' ->
    VI s' /\ PI s' /\ after (Z.min (e_c s + 2048) limit) s'.
  Proof.
    intros Hc Ha P Q K H. rewrite outer_bmp in H by auto.
    set (tl := Z.min (e_c s + 2048) limit) in *.
    apply (many_loop (e_c s) tl Ha ltac:(lia) ltac:(lia) ltac:(lia) (Z.to_nat (tl / 32 - e_c s / 32)) (set_i2block s (e_c s / 32)) s');
      cbn [set_i2block e_c]; auto; try lia.
    - destruct P; constructor; auto.
    - apply PI_set_i2block; auto.
    - replace (e_c s / 32 - e_c s / 32) with 0 by lia. exact H.
  Qed.

  (** ** A value once given stays *)
  Definition Cov (x : Z) (v : V) (s : est) : Prop :=
    (exists p q, In (p, q, v) (e_out s) /\ p <= x < q) \/ (e_prev s <= x < e_c s /\ e_value s = v).
  Lemma cov_note x v s u n : 0 <= n -> Cov x v s -> Cov x v (advance (note veq s u) n).
  Proof.
    intros Hn C. unfold note. destruct (veq u (e_value s)).
    - destruct C as [C|[C1 C2]]; [left; exact C|right]. cbn. split; [lia|exact C2].
    - left. cbn [advance e_out]. unfold out_before. destruct C as [(p & q & C1 & C2)|[C1 C2]].
      + exists p, q. split; auto. destruct (_ <? _); [right|]; exact C1.
      + exists (e_prev s), (e_c s). split; [|exact C1]. replace (e_prev s <? e_c s) with true by lia. left. rewrite C2. reflexivity.
  Qed.
  Lemma cov_advance x v s n : 0 <= n -> Cov x v s -> Cov x v (advance s n).
  Proof. intros Hn [C|[C1 C2]]; [left; exact C|right]. cbn. split; [lia|exact C2]. Qed.
  Lemma cov_jloop x v b js : forall s s', Cov x v s -> jloop veq vf t b js s = Ok s' -> Cov x v s'.
  Proof.
    induction js as [|j js IH]; intros s s' C H; cbn [jloop] in H; [congruence|].
    destruct (aget (index t) (b + j)) as [u|]; [|discriminate]. cbn [bind] in H. eapply IH; [|exact H]. apply cov_note; [lia|auto].
  Qed.
  Lemma cov_body x v b tl i s s' : Cov x v s -> i2body veq vf t b tl i s = Ok s' -> Cov x v s'.
  Proof.
    intros C H. unfold i2body in H. destruct (aget (index t) (b + i)) as [u|]; [|discriminate]. cbn [bind] in H. rewrite DBL in H.
    destruct (_ && _); [injection H as <-; apply cov_advance; [lia|auto]|].
    destruct (_ =? _); [injection H as <-; apply cov_note; [lia|exact C]|].
    eapply cov_jloop; [|exact H]. exact C.
  Qed.
  Lemma cov_loop x v b tl is : forall s s', Cov x v s -> i2loop veq vf t b tl is s = Ok s' -> Cov x v s'.
  Proof.
    induction is as [|i is IH]; intros s s' C H; cbn [i2loop] in H; [congruence|].
    destruct (i2body veq vf t b tl i s) as [s1|] eqn:E; [|discriminate]. cbn [bind] in H. eapply IH; [|exact H]. eapply cov_body; eauto.
  Qed.
  Lemma cov_outer x v s s' : Cov x v s -> outer_body veq vf t limit s = Ok s' -> Cov x v s'.
  Proof.
    intros C H. unfold outer_body in H. destruct (choose t limit (e_c s)) as [[b tl]|]; [|discriminate]. cbn [bind] in H. rewrite CPI in H.
    destruct (_ && _); [injection H as <-; apply cov_advance; [lia|auto]|].
    destruct (b =? _).
    - injection H as <-. destruct (veq _ _); [apply cov_advance; [lia|exact C]|].
      apply (cov_note x v (set_i2block s b) (initV vf t) 2048) in C; [exact C|lia].
    - destruct (i2bounds (e_c s) b tl). eapply cov_loop; [|exact H]. exact C.
  Qed.
  Lemma cov_run x v n : forall s s', Cov x v s -> run_nat (outer_step veq vf t limit) n s = inr (Ok s') -> Cov x v s'.
  Proof.
    induction n as [|n IH]; intros s s' C H; cbn [run_nat] in H; [discriminate|]. unfold outer_step at 1 in H.
    destruct (_ && _); [|injection H as <-; exact C].
    destruct (outer_body veq vf t limit s) as [s1|] eqn:E; [|discriminate]. eapply IH; [|exact H]. eapply cov_outer; eauto.
  Qed.
  Lemma cov_finish x v s rs : x < limit -> Cov x v s -> finish veq vf t limit s = Ok rs -> exists p q, In (p, q, v) rs /\ p <= x < q.
  Proof.
    intros L C H. unfold finish in H.
    assert (G : forall s1, e_c s1 = limit -> Cov x v s1 -> exists p q, In (p, q, v) (rev (out_before s1)) /\ p <= x < q).
    { intros s1 E [(p & q & C1 & C2)|[C1 C2]].
      - exists p, q. split; auto. apply (proj1 (in_rev _ _)). unfold out_before. destruct (e_prev s1 <? e_c s1); [apply in_cons|]; exact C1.
      - exists (e_prev s1), (e_c s1). split; [|exact C1]. apply (proj1 (in_rev _ _)). unfold out_before.
        replace (e_prev s1 <? e_c s1) with true by lia. rewrite C2. apply in_eq. }
    assert (T : forall s1, Cov x v s1 -> Cov x v (mkEst limit (e_prev s1) (e_value s1) (e_block s1) (e_i2block s1) (e_out s1))).
    { intros s1 [C1|[C1 C2]]; [left; exact C1|right]. cbn. split; [lia|exact C2]. }
    destruct (e_c s >? limit) eqn:E1; cbn [bind] in H.
    - injection H as <-. apply G; [reflexivity|]. apply T. exact C.
    - destruct (e_c s <? limit) eqn:E2; cbn [bind] in H.
      + destruct (aget (index t) (highValueIndex t)) as [u|]; [|discriminate]. cbn [bind] in H. injection H as <-. apply G; [reflexivity|].
        apply T. apply (cov_note x v s (vf u) 0) in C; [|lia]. destruct (note veq s (vf u)) eqn:N. unfold advance in C. cbn in *.
        rewrite Z.add_0_r in C. exact C.
      + injection H as <-. apply G; [lia|exact C].
  Qed.

  (** ** The whole run *)
  Lemma holds_dec x v : holds vf t x v \/ ~ holds vf t x v.
  Proof.
    destruct (get t x) as [w|] eqn:E; [|right; intros (w & W & _); congruence].
    destruct (veq (vf w) v) eqn:Q; [left; exists w; split; auto; apply veq_spec; exact Q|].
    right. intros (w' & W & <-). assert (w' = w) by congruence. subst w'.
    assert (veq (vf w) (vf w) = true) by (apply veq_spec; reflexivity). congruence.
  Qed.
  Lemma all_dec b v : forall n, (forall x, b <= x < b + Z.of_nat n -> x < limit -> holds vf t x v) \/
    exists x, b <= x < b + Z.of_nat n /\ x < limit /\ ~ holds vf t x v.
  Proof.
    induction n as [|n IH]; [left; intros; lia|]. destruct IH as [IH|(x & X1 & X2 & X3)]; [|right; exists x; repeat split; auto; lia].
    destruct (Z_lt_le_dec (b + Z.of_nat n) limit) as [L|L].
    - destruct (holds_dec (b + Z.of_nat n) v) as [D|D].
      + left. intros x X1 X2. destruct (Z.eq_dec x (b + Z.of_nat n)) as [->|N]; [exact D|apply IH; lia].
      + right. exists (b + Z.of_nat n). repeat split; auto; lia.
    - left. intros x X1 X2. apply IH; lia.
  Qed.

  Definition agreesb (rs : list (Z * Z * V)) : Prop := forall a b v x, In (a, b, v) rs -> a <= x < b -> x < limit -> holds vf t x v.

  Lemma many_run n : forall s s' rs, start <= e_c s -> e_c s mod 32 = 0 \/ limit <= e_c s -> VI s -> PI s -> (e_c s < limit -> SK s) ->
    run_nat (outer_step veq vf t limit) n s = inr (Ok s') -> finish veq vf t limit s' = Ok rs -> (agreesb rs <-> clean (e_c s)).
  Proof.
    induction n as [|n IH]; intros s s' rs Hc Ha P Q K H F; cbn [run_nat] in H; [discriminate|]. unfold outer_step at 1 in H.
    destruct ((e_c s <? limit) && (e_c s <? highStart t)) eqn:E.
    - destruct (outer_body veq vf t limit s) as [s1|] eqn:E1; [|discriminate].
      assert (Ha' : e_c s mod 32 = 0) by lia. assert (Hc' : start <= e_c s < limit) by lia.
      destruct (many_outer s s1 Hc' Ha' P Q (K ltac:(lia)) E1) as (P1 & Q1 & A).
      destruct A as [(A1 & A2)|[(A1 & A2 & A3 & A4)|(A1 & A2 & A3 & y & A4 & A5)]].
      + pose proof (IH s1 s' rs ltac:(lia) (or_intror A2) P1 Q1 ltac:(lia) H F) as I. rewrite I.
        split; intros _; apply clean_end; lia.
      + replace (Z.min (e_c s + 2048) limit) with (e_c s + 2048) in * by lia.
        assert (A0 : e_c s1 mod 32 = 0) by lia.
        pose proof (IH s1 s' rs ltac:(lia) (or_introl A0) P1 Q1 (fun _ => EB_SK s1 A0 P1 A3) H F) as I. rewrite I, A2.
        replace (e_c s + 2048 + 32) with (e_c s + 2080) by lia. split.
        * intros X. apply clean_joined; auto.
        * intros X. inversion X; subst; [lia|assumption|contradiction].
      + replace (Z.min (e_c s + 2048) limit) with (e_c s + 2048) in * by lia. rewrite <- A2 in *.
        assert (A0 : e_c s1 mod 32 = 0) by lia.
        assert (D : SK s1 \/ (exists x, e_c s1 <= x < e_c s1 + 32 /\ x < limit /\ ~ holds vf t x (e_value s1)) /\ e_c s1 - e_prev s1 >= 32).
        { destruct (Z_le_gt_dec 32 (e_c s1 - e_prev s1)) as [G|G]; [|left; intros z _ _ Z3; lia].
          destruct (all_dec (e_c s1) (e_value s1) 32) as [D|D]; [left; intros z _ _ _; exact D|right]. split; [exact D|lia]. }
        destruct D as [D|((x & X1 & X2 & X3) & G)].
        * pose proof (IH s1 s' rs ltac:(lia) (or_introl A0) P1 Q1 (fun _ => D) H F) as I. rewrite I. split.
          -- intros X. apply clean_next; rewrite <- ?A2; auto; try lia.
             intros (v & L & x & X1 & X2 & X3). pose proof (level_run s1 v ltac:(lia) ltac:(lia) P1 Q1 L) as G.
             assert (v = e_value s1).
             { apply (holds_fun (e_c s1 - 1)); [apply L; lia|]. destruct P1 as [_ P1 _]. apply P1; lia. }
             subst v. apply X3. apply (D y); auto.
          -- intros X. inversion X; subst; [lia|rewrite <- A2 in *; contradiction|rewrite <- A2 in *; assumption].
        * split.
          -- intros AG. exfalso.
             assert (C : forall s2, outer_body veq vf t limit s1 = Ok s2 -> Cov x (e_value s1) s2).
             { intros s2 O. rewrite outer_bmp in O by lia. rewrite py_range_cons in O by lia. cbn [i2loop] in O.
               destruct (i2body veq vf t (e_c s1 / 32) (Z.min (e_c s1 + 2048) limit) 0 (set_i2block s1 (e_c s1 / 32))) as [s3|] eqn:B; [|discriminate].
               cbn [bind] in O. eapply cov_loop; [|exact O]. unfold i2body in B. rewrite Z.add_0_r in B.
               change (aget (index t) (e_c s1 / 32)) with (entry_of (e_c s1)) in B. rewrite A4 in B. cbn [bind] in B.
               unfold INDEX_SHIFT in B. rewrite Z.shiftl_mul_pow2 in B by lia. cbn [set_i2block e_block e_c e_prev] in B. rewrite DBL in B.
               replace ((y * 2 ^ 2 =? e_block s1) && (e_c s1 - e_prev s1 >=? 32)) with true in B by lia.
               injection B as <-. right. cbn. split; [|reflexivity]. destruct P1 as [_ _ P1]. lia. }
             destruct n as [|n]; [discriminate|]. cbn [run_nat] in H. unfold outer_step at 1 in H.
             replace ((e_c s1 <? limit) && (e_c s1 <? highStart t)) with true in H by lia.
             destruct (outer_body veq vf t limit s1) as [s2|] eqn:O; [|discriminate].
             pose proof (cov_run _ _ _ _ _ (C s2 eq_refl) H) as C2. destruct (cov_finish _ _ _ _ X2 C2 F) as (p & q & I1 & I2).
             apply X3. exact (AG p q (e_value s1) x I1 I2 X2).
          -- intros X. exfalso. inversion X; subst; [lia|rewrite <- A2 in *; contradiction|]. rewrite <- A2 in *.
             match goal with N : ~ hidden _ |- _ => apply N end. exists (e_value s1). split; [apply run_level; auto; lia|].
             exists x. repeat split; auto; lia.
    - injection H as <-. assert (L : limit <= e_c s) by lia. split.
      + intros _. apply clean_end. lia.
      + intros _. exact (finish_agrees veq vf t start limit s rs P L F).
  Qed.

  Theorem enumerator_many rs : enumerator veq vf t limit start = Ok rs -> (agrees vf t rs <-> clean start).
  Proof.
    intros H. pose proof (enumerator_partition veq vf veq_spec t start limit ltac:(lia) (or_introl aligned) ltac:(lia) rs H) as [T _].
    unfold enumerator in H. rewrite run_run_nat in H.
    set (s0 := mkEst start start (vf 0) (-1) (-1) (@nil (Z * Z * V))) in *.
    destruct (run_nat (outer_step veq vf t limit) (Pos.to_nat (Z.to_pos (limit - start + 1))) s0) as [|[s'|e]] eqn:R; try discriminate.
    assert (P : VI s0) by (constructor; cbn; [intros; contradiction|intros; lia|lia]).
    assert (Q : PI s0) by (constructor; cbn; auto).
    assert (K : SK s0) by (intros y _ E; change (-1 = 4 * y) in E; lia).
    change (clean start) with (clean (e_c s0)). rewrite <- (many_run _ s0 s' rs (Z.le_refl _) (or_introl aligned) P Q (fun _ => K) R H).
    split; intros A a b v x I X; [intros _; exact (A a b v x I X)|].
    apply (A a b v x I X). destruct (tiles_in veq veq_spec t rs _ _ _ _ _ T I). lia.
  Qed.
End M.
