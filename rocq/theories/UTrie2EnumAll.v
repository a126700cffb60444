(** * UTrie2.enumerator for every request: consecutive ranges, and how far the last one can reach *)
From Coq Require Import ZArith List Bool Lia ZifyBool.
From Verif Require Import Py Arr UnicodeSet UnicodeSetViews Utilities UTrie2 UtilitiesFacts UTrie2Enum.
Import ListNotations.
Open Scope Z_scope.
Ltac Zify.zify_post_hook ::= Z.to_euclidean_division_equations.

Section Every.
  Context {V : Type} (veq : V -> V -> bool) (vf : Z -> V).
  Hypothesis veq_spec : forall a b, veq a b = true <-> a = b.
  Variable t : utrie2.
  Variables start limit : Z.
  Hypothesis start0 : 0 <= start < limit.
  Notation est := (@est V).

  (** the end of the last range may be at most this far *)
  Definition reach (hi : Z) : Prop := hi < limit + 32 \/ (start < 0xE000 /\ 0xDC00 < limit < 0xE420 /\ hi < limit + 1024).
  Record JI (s : est) : Prop := {
    J_pi : PI start s;
    J_out : forall a b v, In (a, b, v) (e_out s) -> a < limit;
    J_val : e_prev s < limit \/ e_value s = initV vf t }.

  Lemma in_note (s : est) v a b w : In (a, b, w) (e_out (note veq s v)) -> In (a, b, w) (e_out s) \/ (a = e_prev s /\ e_value s <> v).
  Proof.
    unfold note. destruct (veq v (e_value s)) eqn:E; [auto|]. cbn [e_out]. unfold out_before. destruct (_ <? _); [|auto].
    intros [H|H]; [|auto]. right. split; [congruence|]. intros N. subst v. rewrite (proj2 (veq_spec _ _) eq_refl) in E. discriminate.
  Qed.
  Lemma prev_le (s : est) : PI start s -> e_prev s <= e_c s.
  Proof. intros [_ _ C]. lia. Qed.
  Lemma JI_set_block s b : JI s -> JI (set_block s b).
  Proof. intros [A B C]. constructor; [apply PI_set_block; exact A|exact B|exact C]. Qed.
  Lemma JI_set_i2block s b : JI s -> JI (set_i2block s b).
  Proof. intros [A B C]. constructor; [apply PI_set_i2block; exact A|exact B|exact C]. Qed.
  Lemma JI_advance s n : 0 <= n -> JI s -> JI (advance s n).
  Proof. intros Hn [A B C]. constructor; [apply (PI_advance veq vf veq_spec); [exact Hn|exact A]|exact B|exact C]. Qed.
  (** a change of value below the limit *)
  Lemma JI_below s v n : 0 < n -> e_c s < limit -> JI s -> JI (advance (note veq s v) n).
  Proof.
    intros Hn Hc [A B C]. constructor.
    - apply (PI_note veq vf veq_spec start); assumption.
    - cbn [advance e_out]. intros a b w H. apply in_note in H. destruct H as [H|[-> _]]; [exact (B a b w H)|]. apply prev_le in A. lia.
    - left. cbn [advance e_prev]. apply prev_le in A. destruct (note_prev veq s v) as [E|E]; rewrite E; lia.
  Qed.
  (** the null block, anywhere *)
  Lemma JI_null s n : 0 < n -> JI s -> JI (advance (note veq s (initV vf t)) n).
  Proof.
    intros Hn [A B C]. constructor.
    - apply (PI_note veq vf veq_spec start); assumption.
    - cbn [advance e_out]. intros a b w H. apply in_note in H. destruct H as [H|[-> N]]; [exact (B a b w H)|]. destruct C; [assumption|contradiction].
    - right. cbn [advance e_value]. apply (note_value veq veq_spec).
  Qed.
  Lemma JI_jloop block js : forall s s', JI s -> e_c s + zlen js <= limit -> jloop veq vf t block js s = Ok s' -> JI s'.
  Proof.
    induction js as [|j js IH]; intros s s' P L H; cbn [jloop] in H; [congruence|].
    destruct (aget (index t) (block + j)) as [x|]; [|discriminate]. cbn [bind] in H. rewrite zlen_cons in L. pose proof (zlen_nonneg js).
    apply (IH _ _) in H; [exact H| |].
    - apply JI_below; [lia|lia|exact P].
    - cbn [advance e_c]. rewrite c_note. lia.
  Qed.
  Lemma JI_i2body b tl i2 s s' : tl <= limit -> JI s -> i2body veq vf t b tl i2 s = Ok s' -> JI s'.
  Proof.
    intros Ht P H. unfold i2body in H. destruct (aget (index t) (b + i2)) as [x|]; [|discriminate]. cbn [bind] in H. rewrite DBL in H.
    destruct (_ && _); [assert (advance s 32 = s') as <- by congruence; apply JI_advance; [lia|exact P]|].
    destruct (_ =? dataNullOffset t).
    - assert (advance (note veq (set_block s (Z.shiftl x INDEX_SHIFT)) (initV vf t)) 32 = s') as <- by congruence.
      apply JI_null; [lia|apply JI_set_block; exact P].
    - destruct (Z.leb_spec tl (e_c s)) as [G|G].
      + rewrite py_range_nil in H by (cbn [set_block e_c]; rewrite land31; lia). cbn [jloop] in H.
        assert (set_block s (Z.shiftl x INDEX_SHIFT) = s') as <- by congruence. apply JI_set_block. exact P.
      + apply JI_jloop in H; [exact H|apply JI_set_block; exact P|]. rewrite zlen_range. cbn [set_block e_c]. rewrite land31. lia.
  Qed.
  Lemma i2body_moves b tl i2 s s' : i2body veq vf t b tl i2 s = Ok s' ->
    e_c s' <= e_c s + 32 /\ (e_prev s' = e_prev s \/ e_prev s' = e_c s \/ e_prev s' < tl).
  Proof. intros H. apply (i2body_spec veq vf veq_spec) in H. lia. Qed.
  Lemma JI_i2loop b tl is : tl <= limit -> forall s s', JI s -> i2loop veq vf t b tl is s = Ok s' ->
    JI s' /\ (e_prev s' = e_prev s \/ e_prev s' < tl \/ e_prev s' <= e_c s + 32 * (zlen is - 1)).
  Proof.
    intros Ht. induction is as [|i is IH]; intros s s' P H; cbn [i2loop] in H.
    - assert (s = s') as <- by congruence. auto.
    - destruct (i2body veq vf t b tl i s) as [s1|] eqn:E; [|discriminate]. cbn [bind] in H.
      assert (P1 := JI_i2body _ _ _ _ _ Ht P E). destruct (IH _ _ P1 H) as [P2 M]. split; [exact P2|].
      apply i2body_moves in E. rewrite zlen_cons. pose proof (zlen_nonneg is). lia.
  Qed.

  Definition JO (s : est) : Prop := JI s /\ start <= e_c s /\ reach (e_prev s).
  Lemma JO_step s s' : JO s -> e_c s < limit -> e_c s < highStart t -> outer_body veq vf t limit s = Ok s' -> JO s'.
  Proof.
    intros (P & Hs & Hr) Hl Hh H. assert (Hc : 0 <= e_c s < limit) by lia. assert (Hp := prev_le s (J_pi s P)).
    assert (M := c_outer veq vf veq_spec t limit s s' Hc H).
    unfold outer_body in H. destruct (choose t limit (e_c s)) as [[b tl]|] eqn:EC; [|discriminate]. cbn [bind] in H. rewrite ?CPI in H.
    destruct (_ && _).
    { assert (advance s 2048 = s') as <- by congruence. split; [|split]; [apply JI_advance; [lia|exact P]|cbn [advance e_c] in *; lia|exact Hr]. }
    destruct (b =? index2NullOffset t).
    { match type of H with Ok ?x = _ => assert (x = s') as <- by congruence end.
      cbn [set_i2block e_value] in *. destruct (veq (e_value s) (initV vf t)).
      - split; [|split]; [apply JI_advance; [lia|apply JI_set_i2block; exact P]|cbn [advance e_c set_i2block] in *; lia|exact Hr].
      - split; [|split].
        + apply (JI_set_block (advance (note veq (set_i2block s b) (initV vf t)) 2048)). apply JI_null; [lia|apply JI_set_i2block; exact P].
        + lia.
        + left. cbn [advance set_block e_prev]. destruct (note_prev veq (set_i2block s b) (initV vf t)) as [E|E]; rewrite E; cbn [set_i2block e_prev e_c]; lia. }
    destruct (i2bounds (e_c s) b tl) as [i0 i1] eqn:EB.
    assert (W := window_of veq vf veq_spec t limit _ _ _ _ _ Hc EC EB). destruct (window_first veq vf veq_spec t limit _ _ _ _ _ Hc W) as [Hi Ht].
    assert (TL : tl <= limit) by (destruct W; lia).
    destruct (JI_i2loop b tl _ TL _ _ (JI_set_i2block s b P) H) as [P' N]. cbn [set_i2block e_prev e_c] in N. rewrite zlen_range in N.
    split; [exact P'|]. split; [lia|].
    destruct N as [N|[N|N]]; [rewrite N; exact Hr|left; lia|].
    replace (Z.max 0 (i1 + 1 - i0) - 1) with (i1 - i0) in N by lia.
    destruct W as [W1 W2 W3 W4 W5 W6|W1 W2 W3 W4 W5|W1 W2 W3 W4 W5 W6|W1 W2 W3 W4 W5].
    - left. subst i0 i1. clear - N Ht TL. lia.
    - left. lia.
    - destruct (Z.ltb_spec (e_prev s') (limit + 32)) as [G|G]; [left; exact G|right]. subst i0. rewrite Z.sub_0_r in N. lia.
    - left. subst i0. clear - N Ht TL W1 W3 W5. destruct (Z.eqb_spec (e_c s / 2048) (tl / 2048)) as [G|G]; subst i1.
      + assert (e_c s / 32 mod 64 = e_c s / 32 - 64 * (e_c s / 2048)) by lia. assert (tl / 32 mod 64 = tl / 32 - 64 * (tl / 2048)) by lia. lia.
      + assert (e_c s / 32 mod 64 = e_c s / 32 - 64 * (e_c s / 2048)) by lia. lia.
  Qed.
  Lemma JO_init : JO (mkEst start start (vf 0) (-1) (-1) []).
  Proof.
    split; [constructor; [constructor; cbn; auto|intros a b v []|left; cbn; lia]|]. cbn [e_c e_prev]. split; [lia|left; lia].
  Qed.
  Lemma reach_limit : reach limit.
  Proof. left. lia. Qed.
  Lemma finish_all s rs : JO s -> (limit <= e_c s \/ highStart t <= e_c s) -> finish veq vf t limit s = Ok rs ->
    exists hi, partition start rs hi /\ limit <= hi /\ reach hi /\ (forall a b v, In (a, b, v) rs -> a < limit).
  Proof.
    intros (P & Hs & Hr) Hc H. destruct (Z.leb_spec (e_prev s) limit) as [L|L].
    - exists limit. split; [exact (finish_partition veq vf veq_spec t start limit s rs (J_pi s P) L Hc H)|]. split; [lia|]. split; [exact reach_limit|].
      destruct (finish_partition veq vf veq_spec t start limit s rs (J_pi s P) L Hc H) as [T _]. clear - T.
      revert T. generalize start. induction rs as [|[[a b] v] rs IH]; intros lo T x y w Hin; [destruct Hin|]. cbn [tiles] in T. destruct T as (-> & T1 & T2).
      assert (Hb : b <= limit). { clear - T2. revert b T2. induction rs as [|[[p q] u] rs IH]; intros b T2; cbn [tiles] in T2; [lia|]. destruct T2 as (-> & ? & T2). apply IH in T2. lia. }
      destruct Hin as [E|Hin]; [assert (lo = x) by congruence; lia|]. exact (IH b T2 x y w Hin).
    - exists (e_prev s). assert (Hp := prev_le s (J_pi s P)). unfold finish in H. replace (e_c s >? limit) with true in H by lia. cbn [bind] in H.
      assert (rs = rev (e_out s)) as ->. { unfold out_before in H. cbn [e_prev e_c e_out] in H. replace (e_prev s <? limit) with false in H by lia. congruence. }
      split; [apply btiles_partition; exact (PI_t _ _ (J_pi s P))|]. split; [lia|]. split; [exact Hr|].
      intros a b v Hin. apply in_rev in Hin. exact (J_out s P a b v Hin).
  Qed.
  Theorem enumerator_all rs : enumerator veq vf t limit start = Ok rs ->
    exists hi, partition start rs hi /\ limit <= hi /\ reach hi /\ (forall a b v, In (a, b, v) rs -> a < limit).
  Proof.
    unfold enumerator. rewrite run_run_nat. intros H.
    destruct (run_nat_inv veq vf veq_spec t limit JO JO_step (fun s (O : JO s) => Z.le_trans _ _ _ (proj1 start0) (proj1 (proj2 O)))
                (Pos.to_nat (Z.to_pos (limit - start + 1))) _ JO_init) as [(s & E & O & Hc)|(e & E & _)];
      try (cbn [e_c]; lia).
    - rewrite E in H. eapply finish_all; eauto.
    - rewrite E in H. discriminate.
  Qed.
End Every.
