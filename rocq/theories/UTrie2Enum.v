(** * UTrie2.enumerator: the yielded ranges are a partition. *)
From Coq Require Import ZArith List Bool Lia ZifyBool.
From Verif Require Import Py Arr UnicodeSet UnicodeSetViews Utilities UTrie2 UtilitiesFacts.
Import ListNotations.
Open Scope Z_scope.
Ltac Zify.zify_post_hook ::= Z.to_euclidean_division_equations.

(** The specification: [partition lo rs hi]: the ranges (start, stop, value) are
    non-empty, contiguous, start at [lo] and end at [hi], and neighbours have
    different values. *)
Fixpoint tiles {V} (lo : Z) (rs : list (Z * Z * V)) (hi : Z) : Prop :=
  match rs with
  | [] => lo = hi
  | (a, b, _) :: r => a = lo /\ a < b /\ tiles b r hi
  end.
Fixpoint changes {V} (rs : list (Z * Z * V)) : Prop :=
  match rs with
  | (_, _, v) :: (((_, _, w) :: _) as r) => v <> w /\ changes r
  | _ => True
  end.
Definition partition {V} (lo : Z) (rs : list (Z * Z * V)) (hi : Z) : Prop := tiles lo rs hi /\ changes rs.

Lemma next32 c tl : 32 - c mod 32 <= tl - c -> (c + Z.max 0 (Z.min (32 - c mod 32) (tl - c))) mod 32 = 0.
Proof.
  intros H. replace (c + Z.max 0 (Z.min (32 - c mod 32) (tl - c))) with ((c / 32 + 1) * 32) by lia.
  apply Z_mod_mult.
Qed.

Lemma next32_div c tl : c / 32 < tl / 32 -> c + Z.max 0 (Z.min (32 - c mod 32) (tl - c)) = (c / 32 + 1) * 32.
Proof. intros H. assert (32 - c mod 32 <= tl - c) by lia. rewrite Z.min_l by lia. lia. Qed.

Lemma div32 c : (c + 32) / 32 = c / 32 + 1.
Proof. lia. Qed.

Lemma py_range_cons a b : a < b -> py_range a b 1 = a :: py_range (a + 1) b 1.
Proof.
  intros H. unfold py_range. replace ((b - a + 1 - 1) / 1) with (b - a) by lia.
  replace ((b - (a + 1) + 1 - 1) / 1) with (b - a - 1) by lia.
  replace (Z.to_nat (b - a)) with (S (Z.to_nat (b - a - 1))) by lia.
  cbn [seq map]. f_equal; [lia|]. rewrite <- seq_shift, map_map. apply map_ext. intros; lia.
Qed.
Lemma py_range_nil a b : b <= a -> py_range a b 1 = [].
Proof. intros H. unfold py_range. replace (Z.to_nat ((b - a + 1 - 1) / 1)) with 0%nat by lia. reflexivity. Qed.

Lemma zlen_range a b : zlen (py_range a b 1) = Z.max 0 (b - a).
Proof. unfold zlen. rewrite py_range_1_len. lia. Qed.

Lemma land31 c : Z.land c DATA_MASK = c mod 32.
Proof. change DATA_MASK with (Z.ones 5). rewrite Z.land_ones by lia. reflexivity. Qed.

Section P.
  Context {V : Type} (veq : V -> V -> bool) (vf : Z -> V).
  Hypothesis veq_spec : forall a b, veq a b = true <-> a = b.
  Variable t : utrie2.
  Variables start limit : Z.

  (** newest first *)
  Fixpoint btiles (out : list (Z * Z * V)) (hi : Z) : Prop :=
    match out with
    | [] => hi = start
    | (a, b, v) :: r => b = hi /\ a < b /\ btiles r a /\
                        match r with (_, _, w) :: _ => w <> v | [] => True end
    end.

  Lemma tiles_app lo r1 : forall mid r2 hi, tiles lo r1 mid -> tiles mid r2 hi -> tiles (V := V) lo (r1 ++ r2) hi.
  Proof.
    revert lo. induction r1 as [|[[a b] v] r1 IH]; intros lo mid r2 hi H1 H2; simpl in *; [subst; auto|].
    destruct H1 as (-> & ? & H1). repeat split; auto. eapply IH; eauto.
  Qed.

  Lemma changes_snoc r a b (v : V) : changes r ->
    match rev r with (_, _, w) :: _ => w <> v | [] => True end -> changes (r ++ [(a, b, v)]).
  Proof.
    induction r as [|[[x y] w] r IH]; intros C H; [simpl; auto|].
    destruct r as [|[[x2 y2] w2] r].
    - simpl in *. auto.
    - cbn [changes app] in *. destruct C as [C1 C2]. split; auto. apply IH; auto.
      cbn [rev] in *. rewrite <- !app_assoc in *. destruct (rev r) as [|[[p q] z] rr]; simpl in *; auto.
  Qed.

  Lemma btiles_partition out hi : btiles out hi -> partition start (rev out) hi.
  Proof.
    revert hi. induction out as [|[[a b] v] r IH]; intros hi H; simpl in *; [split; simpl; auto|].
    destruct H as (-> & L & H & N). destruct (IH _ H) as [T C]. split.
    - eapply tiles_app; eauto. simpl. auto.
    - apply changes_snoc; auto. rewrite rev_involutive. destruct r as [|[[p q] w] r]; auto.
  Qed.

  Record PI (s : est (V := V)) : Prop := {
    PI_t : btiles (e_out s) (e_prev s);
    PI_v : match e_out s with (_, _, w) :: _ => w <> e_value s | [] => True end;
    PI_c : e_prev s < e_c s \/ (e_out s = [] /\ e_prev s = e_c s) }.

  Lemma PI_advance s n : 0 <= n -> PI s -> PI (advance s n).
  Proof. intros Hn [A B C]. constructor; simpl; auto. destruct C; [left; lia|]. destruct (Z.eq_dec n 0); [right; subst; intuition lia|left; intuition lia]. Qed.
  Lemma PI_set_block s b : PI s -> PI (set_block s b).
  Proof. intros [A B C]. constructor; auto. Qed.
  Lemma PI_set_i2block s b : PI s -> PI (set_i2block s b).
  Proof. intros [A B C]. constructor; auto. Qed.

  Lemma veq_false a b : veq a b = false -> a <> b.
  Proof. intros H E. apply veq_spec in E. congruence. Qed.

  (** [note] then a step forward *)
  Lemma PI_note s v n : 0 < n -> PI s -> PI (advance (note veq s v) n).
  Proof.
    intros Hn [A B C]. unfold note. destruct (veq v (e_value s)) eqn:E; [apply PI_advance; [lia|constructor; auto]|].
    apply veq_false in E. unfold out_before.
    destruct (e_prev s <? e_c s) eqn:E2; constructor; simpl; auto; try lia.
    - repeat split; auto; try lia.
    - destruct C as [C|[C1 C2]]; [lia|]. rewrite C1 in *. simpl in *. lia.
    - destruct C as [C|[C1 C2]]; [lia|]. rewrite C1 in *. auto.
  Qed.

  Lemma PI_jloop block js : forall s s', PI s -> jloop veq vf t block js s = Ok s' -> PI s'.
  Proof.
    induction js as [|j js IH]; intros s s' P H; cbn [jloop] in H; [congruence|].
    destruct (aget (index t) (block + j)) as [x|]; [|discriminate]. cbn [bind] in H.
    eapply IH; [|exact H]. apply PI_note; [lia|auto].
  Qed.

  Lemma DBL : DATA_BLOCK_LENGTH = 32. Proof. reflexivity. Qed.
  Lemma CPI : CP_PER_INDEX_1_ENTRY = 2048. Proof. reflexivity. Qed.

  Lemma PI_i2body b tl i2 s s' : PI s -> i2body veq vf t b tl i2 s = Ok s' -> PI s'.
  Proof.
    intros P H. unfold i2body in H. destruct (aget (index t) (b + i2)) as [x|]; [|discriminate]. cbn [bind] in H.
    destruct (_ && _); [injection H as <-; apply PI_advance; [rewrite DBL; lia|auto]|].
    destruct (_ =? _); [injection H as <-; apply PI_note; [rewrite DBL; lia|apply PI_set_block; auto]|].
    eapply PI_jloop; [|exact H]. apply PI_set_block; auto.
  Qed.

  Lemma PI_i2loop b tl is : forall s s', PI s -> i2loop veq vf t b tl is s = Ok s' -> PI s'.
  Proof.
    induction is as [|i is IH]; intros s s' P H; cbn [i2loop] in H; [congruence|].
    destruct (i2body veq vf t b tl i s) as [s1|] eqn:E; [|discriminate]. cbn [bind] in H.
    eapply IH; [|exact H]. eapply PI_i2body; eauto.
  Qed.

  Lemma PI_outer s s' : PI s -> outer_body veq vf t limit s = Ok s' -> PI s'.
  Proof.
    intros P H. unfold outer_body in H.
    destruct (choose t limit (e_c s)) as [[i2Block tl]|]; [|discriminate]. cbn [bind] in H.
    destruct (_ && _); [injection H as <-; apply PI_advance; [rewrite CPI; lia|auto]|].
    destruct (i2Block =? index2NullOffset t).
    - injection H as <-. set (s1 := set_i2block s i2Block).
      assert (P1 : PI s1) by (apply PI_set_i2block; auto).
      cbn [e_value set_i2block]; destruct (veq (e_value s) (initV vf t)) eqn:E.
      + apply PI_advance; [rewrite CPI; lia|exact P1].
      + apply (PI_set_block (advance (note veq s1 (initV vf t)) CP_PER_INDEX_1_ENTRY)).
        apply PI_note; [rewrite CPI; lia|exact P1].
    - destruct (i2bounds (e_c s) i2Block tl) as [i0 i1].
      eapply PI_i2loop; [|exact H]. apply PI_set_i2block; auto.
  Qed.

  (** ** Progress *)

  Lemma c_note s v : e_c (note veq s v) = e_c s.
  Proof. unfold note. destruct (veq _ _); reflexivity. Qed.

  Lemma c_jloop block js : forall s s', jloop veq vf t block js s = Ok s' -> e_c s' = e_c s + zlen js.
  Proof.
    induction js as [|j js IH]; intros s s' H; cbn [jloop] in H.
    - injection H as <-. unfold zlen; simpl; lia.
    - destruct (aget (index t) (block + j)) as [x|]; [|discriminate]. cbn [bind] in H.
      apply IH in H. rewrite H. cbn [advance e_c]. rewrite c_note. rewrite zlen_cons. lia.
  Qed.

  (** where c is after one data block *)
  Lemma c_i2body b tl i2 s s' : i2body veq vf t b tl i2 s = Ok s' ->
    e_c s' = e_c s + 32 \/ e_c s' = e_c s + Z.max 0 (Z.min (32 - e_c s mod 32) (tl - e_c s)).
  Proof.
    intros H. unfold i2body in H. destruct (aget (index t) (b + i2)) as [x|]; [|discriminate]. cbn [bind] in H.
    destruct (_ && _); [injection H as <-; left; reflexivity|].
    destruct (_ =? _); [injection H as <-; left; simpl; rewrite c_note; reflexivity|].
    apply c_jloop in H. rewrite zlen_range in H. cbn [set_block e_c] in H. rewrite land31, DBL in H. right. lia.
  Qed.

  Lemma c_i2loop_mono b tl is : forall s s', i2loop veq vf t b tl is s = Ok s' -> e_c s <= e_c s'.
  Proof.
    induction is as [|i is IH]; intros s s' H; cbn [i2loop] in H; [injection H as <-; lia|].
    destruct (i2body veq vf t b tl i s) as [s1|] eqn:E; [|discriminate]. cbn [bind] in H.
    apply IH in H. apply c_i2body in E. lia.
  Qed.

  Lemma isSurr_iff c : 0 <= c <= 0xFFFF -> isSurrogate c = ((0xD800 <=? c) && (c <=? 0xDFFF)).
  Proof.
    intros H. pose proof (isSurrogate_spec c ltac:(lia)) as S.
    destruct (isSurrogate c); destruct ((0xD800 <=? c) && (c <=? 0xDFFF)) eqn:E; auto; try (exfalso; lia).
  Qed.
  Lemma isLead_iff c : 0xD800 <= c <= 0xDFFF -> isSurrogateLead c = (c <=? 0xDBFF).
  Proof.
    intros H. assert (S : isSurrogate c = true) by (apply isSurrogate_spec; lia).
    destruct (isSurrogateLead_spec c S ltac:(lia)) as [-> _].
    pose proof (isLead_spec c ltac:(lia)) as L. destruct (isLead c); destruct (c <=? 0xDBFF) eqn:E; auto; exfalso; try lia.
  Qed.

  Lemma shr5 c : Z.shiftr c SHIFT_2 = c / 32.
  Proof. unfold SHIFT_2. rewrite Z.shiftr_div_pow2 by lia. reflexivity. Qed.
  Lemma shr11 c : Z.shiftr c SHIFT_1 = c / 2048.
  Proof. unfold SHIFT_1. rewrite Z.shiftr_div_pow2 by lia. reflexivity. Qed.
  Lemma land63 c : Z.land c INDEX_2_MASK = c mod 64.
  Proof. change INDEX_2_MASK with (Z.ones 6). rewrite Z.land_ones by lia. reflexivity. Qed.

  (** The four kinds of window: (c, i2Block, tempLimit, first i2, last i2) *)
  Inductive window (c b tl i0 i1 : Z) : Prop :=
  | w_bmp : 0 <= c <= 0xFFFF -> ~ (0xD800 <= c <= 0xDFFF) -> b = c / 32 ->
            tl = Z.min (Z.min (c + 2048) limit) 0x10000 -> i0 = 0 -> i1 = tl / 32 - c / 32 -> window c b tl i0 i1
  | w_lead : 0xD800 <= c <= 0xDBFF -> b = 2048 -> tl = Z.min 0xDC00 limit -> i0 = 0 -> i1 = 0 -> window c b tl i0 i1
  | w_trail : 0xDC00 <= c <= 0xDFFF -> b = 0x6E0 -> tl = Z.min 0xE000 limit -> i0 = 0 -> 0 <= i1 <= 32 ->
              i1 = Z.max 0 (tl / 32 - 0x6E0) -> window c b tl i0 i1
  | w_supp : 0x10000 <= c -> aget (index t) (2080 + c / 2048) = Ok b -> tl = Z.min (c + 2048) limit ->
             i0 = c / 32 mod 64 ->
             i1 = (if c / 2048 =? tl / 2048 then tl / 32 mod 64 else 64) -> window c b tl i0 i1.

  Lemma window_of c b tl i0 i1 : 0 <= c < limit -> choose t limit c = Ok (b, tl) -> i2bounds c b tl = (i0, i1) ->
    window c b tl i0 i1.
  Proof.
    intros Hc Hch Hb. unfold choose in Hch. unfold i2bounds in Hb. rewrite ?CPI in Hch.
    destruct (c <=? 0xFFFF) eqn:E1.
    - rewrite isSurr_iff in Hch by lia.
      destruct ((0xD800 <=? c) && (c <=? 0xDFFF)) eqn:E2; cbn [negb] in Hch.
      + rewrite isLead_iff in Hch by lia. destruct (c <=? 0xDBFF) eqn:E3; injection Hch as <- <-.
        * rewrite shr5 in Hb. change LSCP_INDEX_2_OFFSET with 2048 in *.
          destruct (Z.min 0xDC00 limit / 32 - 2048 <? 0) eqn:E4; [|lia]. injection Hb as <- <-.
          apply w_lead; auto; lia.
        * rewrite (shr5 (Z.min 0xE000 limit)) in Hb. change (Z.shiftr 0xDC00 SHIFT_2) with 0x6E0 in *.
          destruct (Z.min 0xE000 limit / 32 - 0x6E0 <? 0) eqn:E4; injection Hb as <- <-; apply w_trail; auto; lia.
      + injection Hch as <- <-.
        assert (TL : (if Z.min (c + 2048) limit >? 0x10000 then 0x10000 else Z.min (c + 2048) limit) = Z.min (Z.min (c + 2048) limit) 0x10000).
        { destruct (_ >? _) eqn:E; lia. }
        rewrite TL in *. rewrite !shr5 in *.
        destruct (_ <? 0) eqn:E4; [lia|]. injection Hb as <- <-. apply w_bmp; auto; lia.
    - change (INDEX_1_OFFSET - OMITTED_BMP_INDEX_1_LENGTH) with 2080 in Hch.
      rewrite shr11 in Hch.
      destruct (aget (index t) (2080 + c / 2048)) as [bb|] eqn:EA; [|discriminate]. cbn [bind] in Hch. injection Hch as <- <-.
      rewrite !shr5, !shr11, !land63 in Hb. change INDEX_2_BLOCK_LENGTH with 64 in Hb. injection Hb as <- <-.
      apply w_supp; auto; [lia|]. destruct (_ =? _); reflexivity.
  Qed.

  Lemma window_first c b tl i0 i1 : 0 <= c < limit -> window c b tl i0 i1 -> i0 <= i1 /\ c < tl.
  Proof.
    intros Hc W. destruct W; subst; try lia.
    destruct (_ =? _) eqn:E; lia.
  Qed.

  Lemma c_outer s s' : 0 <= e_c s < limit -> outer_body veq vf t limit s = Ok s' -> e_c s < e_c s'.
  Proof.
    intros Hc H. unfold outer_body in H.
    destruct (choose t limit (e_c s)) as [[b tl]|] eqn:EC; [|discriminate]. cbn [bind] in H.
    destruct (_ && _); [injection H as <-; simpl; rewrite CPI; lia|].
    destruct (b =? index2NullOffset t).
    { injection H as <-. destruct (veq _ _); cbn; rewrite ?c_note; cbn; rewrite ?CPI; lia. }
    destruct (i2bounds (e_c s) b tl) as [i0 i1] eqn:EB.
    destruct (window_first _ _ _ _ _ Hc (window_of _ _ _ _ _ Hc EC EB)) as [Hi Ht].
    rewrite py_range_cons in H by lia. cbn [i2loop] in H.
    destruct (i2body veq vf t b tl i0 (set_i2block s b)) as [s1|] eqn:E; [|discriminate]. cbn [bind] in H.
    apply c_i2loop_mono in H. apply c_i2body in E. cbn [set_i2block e_c] in E. lia.
  Qed.

  (** ** The loop with a general invariant *)

  Lemma run_nat_inv (I : est (V := V) -> Prop) :
    (forall s s', I s -> e_c s < limit -> e_c s < highStart t -> outer_body veq vf t limit s = Ok s' -> I s') ->
    (forall s, I s -> 0 <= e_c s) ->
    forall n s, I s -> (0 < n)%nat -> limit - e_c s < Z.of_nat n ->
    (exists s', run_nat (outer_step veq vf t limit) n s = inr (Ok s') /\ I s' /\ (limit <= e_c s' \/ highStart t <= e_c s')) \/
    (exists e, run_nat (outer_step veq vf t limit) n s = inr (Err e) /\
       exists s1, I s1 /\ e_c s1 < limit /\ e_c s1 < highStart t /\ outer_body veq vf t limit s1 = Err e).
  Proof.
    intros Step Pos. induction n as [|n IH]; intros s HI H0 Hn; [lia|].
    cbn [run_nat]. unfold outer_step at 1 3.
    destruct ((e_c s <? limit) && (e_c s <? highStart t)) eqn:E.
    - destruct (outer_body veq vf t limit s) as [s1|e] eqn:EB.
      + pose proof (Pos s HI). apply IH; [eapply Step; eauto; lia|lia|]. apply c_outer in EB; lia.
      + right. exists e. split; auto. exists s. repeat split; auto; lia.
    - left. exists s. repeat split; auto. lia.
  Qed.

  (** ** No range reaches past the limit *)

  Definition A (s : est (V := V)) : Prop := e_c s mod 32 = 0 \/ (limit <= start + 2048 /\ e_value s = initV vf t).
  Definition fresh (s : est (V := V)) : Prop := e_c s = start /\ e_prev s = start.

  Lemma note_value s v : e_value (note veq s v) = v.
  Proof. unfold note. destruct (veq v (e_value s)) eqn:E; [apply veq_spec in E; auto|reflexivity]. Qed.
  Lemma note_prev s v : e_prev (note veq s v) = e_prev s \/ e_prev (note veq s v) = e_c s.
  Proof. unfold note. destruct (veq _ _); auto. Qed.

  Lemma prev_jloop block js : forall s s', jloop veq vf t block js s = Ok s' ->
    e_prev s' = e_prev s \/ e_c s <= e_prev s' < e_c s + zlen js.
  Proof.
    induction js as [|j js IH]; intros s s' H; cbn [jloop] in H.
    - injection H as <-. auto.
    - destruct (aget (index t) (block + j)) as [x|]; [|discriminate]. cbn [bind] in H.
      apply IH in H. cbn [advance e_c e_prev] in H. rewrite c_note in H. rewrite zlen_cons.
      pose proof (zlen_nonneg js). destruct (note_prev s (vf x)) as [E|E]; rewrite E in H; lia.
  Qed.

  Lemma i2body_spec b tl i2 s s' : i2body veq vf t b tl i2 s = Ok s' ->
    (32 <= e_c s - e_prev s /\ e_c s' = e_c s + 32 /\ e_value s' = e_value s /\ e_prev s' = e_prev s) \/
    (e_c s' = e_c s + 32 /\ e_value s' = initV vf t /\
       (e_prev s' = e_prev s \/ (e_prev s' = e_c s /\ e_value s <> initV vf t))) \/
    (e_c s' = e_c s + Z.max 0 (Z.min (32 - e_c s mod 32) (tl - e_c s)) /\
       (e_prev s' = e_prev s \/ e_prev s' < tl) /\ (tl <= e_c s -> e_value s' = e_value s)).
  Proof.
    intros H. unfold i2body in H. destruct (aget (index t) (b + i2)) as [x|]; [|discriminate]. cbn [bind] in H.
    rewrite DBL in H.
    destruct (_ && _) eqn:E0; [injection H as <-; left; cbn; repeat split; auto; lia|].
    destruct (_ =? dataNullOffset t).
    - injection H as <-. right. left. cbn [advance e_c e_prev e_value]. rewrite c_note, note_value. cbn.
      repeat split; auto. unfold note. destruct (veq _ _) eqn:E; [left; reflexivity|].
      right. cbn. split; auto. apply veq_false in E. cbn in E. auto.
    - right. right. pose proof (c_jloop _ _ _ _ H) as Hc. pose proof (prev_jloop _ _ _ _ H) as Hp.
      rewrite zlen_range in *. cbn [set_block e_c e_prev] in *. rewrite land31 in *. split; [lia|].
      split; [lia|]. intros Htl. rewrite py_range_nil in H by lia. cbn [jloop] in H. injection H as <-. reflexivity.
  Qed.

  Hypothesis start0 : 0 <= start < limit.
  Hypothesis aligned_or_short : start mod 32 = 0 \/ limit <= start + 2048.
  Hypothesis limit_ok : limit <= 0xDC00 \/ 0xE420 <= limit \/ 0xE000 <= start.

  Definition OI (s : est (V := V)) : Prop :=
    PI s /\ start <= e_c s /\ e_prev s <= limit /\
    (limit <= e_c s \/ A s \/ fresh s).

  (** windows where [c] and [i2] move together *)
  Lemma linear_loop b tl c0 i0 i1 : c0 < tl -> tl <= limit -> c0 / 32 + (i1 - i0) <= tl / 32 ->
    (tl = limit \/ tl mod 32 = 0) ->
    forall i2 s s', i0 <= i2 <= i1 -> e_c s / 32 = c0 / 32 + (i2 - i0) -> e_prev s <= limit -> start <= e_c s ->
    (A s \/ (i2 = i0 /\ e_c s = c0 /\ fresh s)) ->
    i2loop veq vf t b tl (py_range i2 (i1 + 1) 1) s = Ok s' ->
    e_prev s' <= limit /\ start <= e_c s' /\ (limit <= e_c s' \/ A s').
  Proof.
    intros H1 H2 H3 Htl i2 s s' Hi. remember (Z.to_nat (i1 - i2)) as n eqn:Hn. revert i2 s s' Hi Hn.
    induction n as [|n IH]; intros i2 s s' Hi Hn Hc Hp Hst HA H; rewrite py_range_cons in H by lia; cbn [i2loop] in H;
      destruct (i2body veq vf t b tl i2 s) as [s1|] eqn:E; try discriminate; cbn [bind] in H.
    - replace i2 with i1 in * by lia. rewrite py_range_nil in H by lia. cbn [i2loop] in H. injection H as <-.
      apply i2body_spec in E. unfold A, fresh in *.
      destruct E as [(G & Ec & Ev & Ep)|[(Ec & Ev & Ep)|(Ec & Ep & Ev)]].
      + rewrite Ep, Ev, Ec. split; [lia|]. split; [lia|]. right. destruct HA as [[HA|HA]|HA]; [| |lia]; [left; lia|right; auto].
      + split; [|split; [lia|]].
        * destruct Ep as [->|[-> Ne]]; [auto|]. destruct HA as [[HA|[_ HA]]|HA]; [lia|contradiction|lia].
        * right. rewrite Ec, Ev. destruct HA as [[HA|[HA _]]|HA]; [left; lia|right; auto|].
          destruct aligned_or_short; [left; lia|right; auto].
      + split; [lia|]. split; [lia|]. rewrite Ec.
        destruct (Z_le_gt_dec tl (e_c s)) as [L|L].
        * rewrite (Ev L). destruct HA as [[HA|HA]|HA]; [| |lia]; right; [left|right]; auto. lia.
        * destruct (Z_le_gt_dec (32 - e_c s mod 32) (tl - e_c s)); [right; left; apply next32; lia|]. destruct Htl; [left; lia|right; left; lia].
    - apply i2body_spec in E. unfold A, fresh in *.
      assert (Hlt : e_c s / 32 < tl / 32) by lia.
      eapply (IH (i2 + 1) s1 s'); try lia; try exact H.
      + left. destruct E as [(G & Ec & Ev & Ep)|[(Ec & Ev & Ep)|(Ec & Ep & Ev)]].
        * rewrite Ev, Ec. destruct HA as [[HA|HA]|HA]; [| |lia]; [left; lia|right; auto].
        * rewrite Ec, Ev. destruct HA as [[HA|[HA _]]|HA]; [left; lia|right; auto|].
          destruct aligned_or_short; [left; lia|right; auto].
        * left. rewrite Ec. rewrite next32_div by lia. apply Z_mod_mult.
  Qed.

  (** the trail surrogate window *)
  Lemma trail_loop b tl : tl = 0xE000 -> tl <= limit ->
    forall is s s', e_prev s <= limit -> start <= e_c s -> e_c s + 32 * zlen is <= limit ->
    (A s \/ (e_c s < tl /\ fresh s)) ->
    is <> [] ->
    i2loop veq vf t b tl is s = Ok s' ->
    e_prev s' <= limit /\ start <= e_c s' /\ A s'.
  Proof.
    intros Htl H2. induction is as [|i2 is IH]; intros s s' Hp Hst Hc HA Nn H; [congruence|]. cbn [i2loop] in H.
    destruct (i2body veq vf t b tl i2 s) as [s1|] eqn:E; try discriminate; cbn [bind] in H.
    rewrite zlen_cons in Hc. pose proof (zlen_nonneg is). apply i2body_spec in E. unfold A, fresh in *.
    assert (K : e_prev s1 <= limit /\ start <= e_c s1 /\ (e_c s1 mod 32 = 0 \/ (limit <= start + 2048 /\ e_value s1 = initV vf t))).
    { destruct E as [(G & Ec & Ev & Ep)|[(Ec & Ev & Ep)|(Ec & Ep & Ev)]]; (split; [lia|split; [lia|]]).
      - rewrite Ev, Ec. destruct HA as [[HA|HA]|HA]; [| |lia]; [left; lia|right; auto].
      - rewrite Ec, Ev. destruct HA as [[HA|[HA _]]|HA]; [left; lia|right; auto|].
        destruct aligned_or_short; [left; lia|right; auto].
      - rewrite Ec. destruct (Z_le_gt_dec tl (e_c s)) as [L|L].
        + rewrite (Ev L). destruct HA as [[HA|HA]|HA]; [| |lia]; [left; lia|right; auto].
        + left. lia. }
    destruct is as [|i3 is].
    - cbn [i2loop] in H. injection H as <-. exact K.
    - destruct K as (K1 & K2 & K3). eapply IH; [ | | | |discriminate|exact H]; auto.
      destruct E as [(G & Ec & Ev & Ep)|[(Ec & Ev & Ep)|(Ec & Ep & Ev)]]; lia.
  Qed.

  Lemma fresh_of_PI s : PI s -> e_c s = start -> fresh s.
  Proof.
    intros [P1 P2 P3] E. split; auto. destruct P3 as [P3|P3]; [|lia].
    exfalso. rewrite E in P3.
    assert (G : forall out hi, btiles out hi -> start <= hi).
    { induction out as [|[[a b] v] r IH]; intros hi Hb; simpl in Hb; [lia|].
      destruct Hb as (-> & ? & Hb & _). apply IH in Hb. lia. }
    apply G in P1. lia.
  Qed.

  Lemma OI_step s s' : OI s -> e_c s < limit -> e_c s < highStart t ->
    outer_body veq vf t limit s = Ok s' -> OI s'.
  Proof.
    intros (P & Hs & Hp & HA) Hl Hh H. pose proof (PI_outer _ _ P H) as P'. unfold OI. split; auto. clear P'.
    assert (Hc : 0 <= e_c s < limit) by lia.
    unfold outer_body in H.
    destruct (choose t limit (e_c s)) as [[b tl]|] eqn:EC; [|discriminate]. cbn [bind] in H. rewrite CPI in H.
    destruct (_ && _) eqn:E0.
    { injection H as <-. cbn. split; [lia|]. split; [lia|]. unfold A, fresh in *. cbn.
      destruct HA as [HA|[[HA|HA]|HA]]; [lia|right; left; left; lia|right; left; right; auto|lia]. }
    destruct (b =? index2NullOffset t).
    { injection H as <-. cbn [e_value set_i2block].
      assert (HA2 : forall c, c = e_c s + 2048 -> c mod 32 = 0 \/ limit <= start + 2048).
      { unfold A, fresh in HA. intros c ->. destruct HA as [HA|[[HA|[HA _]]|HA]]; [lia|left; lia|right; auto|].
        destruct aligned_or_short; [left; lia|right; auto]. }
      destruct (veq (e_value s) (initV vf t)) eqn:E.
      - apply veq_spec in E. unfold A. cbn. split; [lia|]. split; [lia|].
        destruct (HA2 _ eq_refl); [right; left; left; auto|right; left; right; auto].
      - unfold A. cbn [advance set_block e_c e_prev e_value]. rewrite c_note, note_value. cbn [set_i2block e_c].
        split; [lia|]. split.
        { destruct (note_prev (set_i2block s b) (initV vf t)) as [->| ->]; cbn; lia. }
        destruct (HA2 _ eq_refl); [right; left; left; auto|right; left; right; auto]. }
    destruct (i2bounds (e_c s) b tl) as [i0 i1] eqn:EB.
    pose proof (window_of _ _ _ _ _ Hc EC EB) as W.
    destruct (window_first _ _ _ _ _ Hc W) as [Hi Ht].
    set (s1 := set_i2block s b) in *.
    assert (C1 : e_c s1 = e_c s) by reflexivity. assert (C2 : e_prev s1 = e_prev s) by reflexivity.
    assert (C3 : e_value s1 = e_value s) by reflexivity. clearbody s1.
    assert (HA1 : A s1 \/ (i0 = i0 /\ e_c s1 = e_c s /\ fresh s1)).
    { unfold A, fresh in *. rewrite C1, C2, C3. destruct HA as [HA|[HA|HA]]; auto; lia. }
    assert (HTL : e_c s mod 32 = 0 \/ limit <= e_c s + 2048).
    { unfold A, fresh in HA. destruct HA as [HA|[[HA|[HA _]]|HA]]; [lia|left; lia|right; lia|].
      destruct aligned_or_short; [left; lia|right; lia]. }
    assert (Fin : e_prev s' <= limit /\ start <= e_c s' /\ (limit <= e_c s' \/ A s')).
    { destruct W as [W1 W2 Wb Wt Wi0 Wi1 | W1 Wb Wt Wi0 Wi1 | W1 Wb Wt Wi0 Wi1 Wi1' | W1 Wb Wt Wi0 Wi1].
      - eapply (linear_loop b tl (e_c s) i0 i1); try exact H; try lia; auto.
      - eapply (linear_loop b tl (e_c s) i0 i1); try exact H; try lia; auto.
      - destruct (trail_loop b tl ltac:(lia) ltac:(lia) (py_range i0 (i1 + 1) 1) s1 s') as (F1 & F2 & F3);
          try exact H; try lia; auto.
        + rewrite zlen_range. lia.
        + destruct HA1 as [?|(_ & _ & ?)]; auto. right. split; auto. lia.
        + intros E. apply (f_equal zlen) in E. rewrite zlen_range in E. unfold zlen in E. simpl in E. lia.
      - eapply (linear_loop b tl (e_c s) i0 i1); try exact H; try lia; auto.
        destruct (e_c s / 2048 =? tl / 2048) eqn:Q; lia. }
    destruct Fin as (F1 & F2 & F3). split; auto. split; auto. tauto.
  Qed.

  (** ** The tail *)

  Lemma finish_partition s rs : PI s -> e_prev s <= limit -> (limit <= e_c s \/ highStart t <= e_c s) ->
    finish veq vf t limit s = Ok rs -> partition start rs limit.
  Proof.
    intros P Hp Hc H. unfold finish in H.
    assert (Fin : forall s1, PI s1 -> e_c s1 = limit -> partition start (rev (out_before s1)) limit).
    { intros s1 [P1 P2 P3] E. apply btiles_partition. unfold out_before. rewrite E in *.
      destruct (e_prev s1 <? limit) eqn:L; cbn [btiles].
      - repeat split; auto. lia.
      - destruct P3 as [P3|[P3 P4]]; [lia|]. rewrite P4 in P1. auto. }
    destruct (e_c s >? limit) eqn:E1.
    - cbn [bind] in H. injection H as <-. destruct P as [P1 P2 P3].
      apply btiles_partition. unfold out_before. cbn [e_c e_prev e_value e_out].
      destruct (e_prev s <? limit) eqn:L; cbn [btiles].
      + repeat split; auto. lia.
      + replace limit with (e_prev s) by lia. auto.
    - destruct (e_c s <? limit) eqn:E2.
      + destruct (aget (index t) (highValueIndex t)) as [x|]; [|discriminate]. cbn [bind] in H. injection H as <-.
        pose proof (PI_note s (vf x) (limit - e_c s) ltac:(lia) P) as P'. apply (Fin _) in P'.
        * unfold advance in P'. rewrite c_note in P'. replace (e_c s + (limit - e_c s)) with limit in P' by lia. exact P'.
        * cbn. rewrite c_note. lia.
      + cbn [bind] in H. injection H as <-. apply Fin; auto. lia.
  Qed.

  Lemma OI_init : OI (mkEst start start (vf 0) (-1) (-1) []).
  Proof.
    split; [constructor; cbn; auto|]. cbn. split; [lia|]. split; [lia|]. right. right. split; reflexivity.
  Qed.

  Theorem enumerator_partition rs : enumerator veq vf t limit start = Ok rs -> partition start rs limit.
  Proof.
    unfold enumerator. rewrite run_run_nat. intros H.
    destruct (run_nat_inv OI OI_step (fun s (O : OI s) => proj1 (conj (Z.le_trans _ _ _ (proj1 start0) (proj1 (proj2 O))) I))
                (Pos.to_nat (Z.to_pos (limit - start + 1))) _ OI_init) as [(s & E & (P & _ & Hp & _) & Hc)|(e & E & _)];
      try (cbn [e_c]; lia).
    - rewrite E in H. eapply finish_partition; eauto.
    - rewrite E in H. discriminate.
  Qed.
End P.

(** ** The generator ends, and does not raise on a trie whose references are in range *)

(** every reference the generator may follow: the BMP index entries (and the two
    tables after them), one entry past each index-2 block, and the high value *)
Record refs_ok (t : utrie2) : Prop := {
  R_bmp : forall k, 0 <= k <= 2080 -> exists x, aget (index t) k = Ok x /\ 0 <= x /\ 4 * x + 32 <= alen (index t);
  R_supp : forall c, 0x10000 <= c < highStart t -> exists b, aget (index t) (2080 + c / 2048) = Ok b /\
    forall k, 0 <= k <= 64 -> exists x, aget (index t) (b + k) = Ok x /\ 0 <= x /\ 4 * x + 32 <= alen (index t);
  R_high : 0 <= highValueIndex t < alen (index t) }.

Section T.
  Context {V : Type} (veq : V -> V -> bool) (vf : Z -> V).
  Hypothesis veq_spec : forall a b, veq a b = true <-> a = b.
  Variable t : utrie2.
  Variables start limit : Z.
  Hypothesis start0 : 0 <= start < limit.

  Lemma aget_err a i e : aget a i = Err e -> e = IndexError.
  Proof. unfold aget. repeat destruct (_ && _); congruence. Qed.

  Lemma jloop_err block js : forall s e, jloop veq vf t block js s = Err e -> e = IndexError.
  Proof.
    induction js as [|j js IH]; intros s e H; cbn [jloop] in H; [discriminate|].
    destruct (aget (index t) (block + j)) as [x|e1] eqn:E; cbn [bind] in H; [eauto|].
    injection H as <-. eapply aget_err; eauto.
  Qed.
  Lemma i2loop_err b tl is : forall s e, i2loop veq vf t b tl is s = Err e -> e = IndexError.
  Proof.
    induction is as [|i is IH]; intros s e H; cbn [i2loop] in H; [discriminate|].
    destruct (i2body veq vf t b tl i s) as [s1|e1] eqn:E; cbn [bind] in H; [eauto|].
    injection H as <-. unfold i2body in E.
    destruct (aget (index t) (b + i)) as [x|e2] eqn:E2; cbn [bind] in E.
    - destruct (_ && _); [discriminate|]. destruct (_ =? dataNullOffset t); [discriminate|]. eapply jloop_err; eauto.
    - injection E as <-. eapply aget_err; eauto.
  Qed.
  Lemma choose_err c e : choose t limit c = Err e -> e = IndexError.
  Proof.
    unfold choose. destruct (c <=? 0xFFFF).
    - destruct (negb _); [discriminate|]. destruct (isSurrogateLead c); discriminate.
    - destruct (aget _ _) eqn:E; cbn [bind]; [discriminate|]. intros H. injection H as <-. eapply aget_err; eauto.
  Qed.
  Lemma outer_err s e : outer_body veq vf t limit s = Err e -> e = IndexError.
  Proof.
    unfold outer_body. destruct (choose t limit (e_c s)) as [[b tl]|e1] eqn:EC; cbn [bind]; intros H.
    - destruct (_ && _); [discriminate|]. destruct (_ =? index2NullOffset t); [discriminate|].
      destruct (i2bounds (e_c s) b tl). eapply i2loop_err; eauto.
    - injection H as <-. eapply choose_err; eauto.
  Qed.

  (** The generator always ends: it yields a finite list or raises IndexError. *)
  Theorem enumerator_terminates :
    (exists rs, enumerator veq vf t limit start = Ok rs) \/ enumerator veq vf t limit start = Err IndexError.
  Proof.
    unfold enumerator. rewrite run_run_nat.
    destruct (run_nat_inv veq vf veq_spec t limit (fun s => 0 <= e_c s)) with
      (n := Pos.to_nat (Z.to_pos (limit - start + 1))) (s := mkEst start start (vf 0) (-1) (-1) (@nil (Z * Z * V)))
      as [(s & E & HI & Hc)|(e & E & s1 & HI & Hl & Hh & EB)]; try (cbn [e_c]; lia).
    - intros s s' HI Hl Hh H. apply (c_outer veq vf veq_spec t limit s s') in H; lia.
    - rewrite E. unfold finish. destruct (e_c s >? limit); [left; eexists; reflexivity|].
      destruct (e_c s <? limit); [|left; eexists; reflexivity].
      destruct (aget (index t) (highValueIndex t)) as [x|e] eqn:E2; cbn [bind]; [left; eexists; reflexivity|].
      right. f_equal. eapply aget_err; eauto.
    - rewrite E. right. f_equal. eapply outer_err; eauto.
  Qed.

  Hypothesis RO : refs_ok t.

  Lemma jloop_ok block js : (forall j, In j js -> 0 <= block + j < alen (index t)) ->
    forall s, exists s', jloop veq vf t block js s = Ok s'.
  Proof.
    induction js as [|j js IH]; intros R s; cbn [jloop]; [eauto|].
    rewrite aget_Ok by (apply R; left; auto). cbn [bind]. apply IH. intros; apply R; right; auto.
  Qed.

  Lemma i2loop_ok b tl is : (forall i, In i is -> exists x, aget (index t) (b + i) = Ok x /\ 0 <= x /\ 4 * x + 32 <= alen (index t)) ->
    forall s, 0 <= e_c s -> exists s', i2loop veq vf t b tl is s = Ok s'.
  Proof.
    induction is as [|i is IH]; intros R s Hc; cbn [i2loop]; [eauto|].
    destruct (R i (or_introl eq_refl)) as (x & E & Hx).
    assert (K : exists s1, i2body veq vf t b tl i s = Ok s1).
    { unfold i2body. rewrite E. cbn [bind]. destruct (_ && _); [eauto|]. destruct (_ =? dataNullOffset t); [eauto|].
      apply jloop_ok. intros j Hj. apply py_range_1_spec in Hj. cbn [set_block e_c] in Hj. rewrite land31, DBL in Hj.
      unfold INDEX_SHIFT. rewrite Z.shiftl_mul_pow2 by lia. lia. }
    destruct K as (s1 & K). rewrite K. cbn [bind]. apply IH; [intros; apply R; right; auto|].
    apply (c_i2body veq vf veq_spec) in K. lia.
  Qed.

  Theorem enumerator_ok : exists rs, enumerator veq vf t limit start = Ok rs.
  Proof.
    destruct enumerator_terminates as [H|H]; auto. exfalso. revert H.
    unfold enumerator. rewrite run_run_nat.
    destruct (run_nat_inv veq vf veq_spec t limit (fun s => 0 <= e_c s)) with
      (n := Pos.to_nat (Z.to_pos (limit - start + 1))) (s := mkEst start start (vf 0) (-1) (-1) (@nil (Z * Z * V)))
      as [(s & E & HI & Hc)|(e & E & s1 & HI & Hl & Hh & EB)]; try (cbn [e_c]; lia).
    - intros s s' HI Hl Hh H. apply (c_outer veq vf veq_spec t limit s s') in H; lia.
    - rewrite E. unfold finish. destruct (e_c s >? limit); [discriminate|].
      destruct (e_c s <? limit); [|discriminate].
      rewrite aget_Ok by apply (R_high t RO). discriminate.
    - rewrite E. intros _. unfold outer_body in EB.
      assert (Hc : 0 <= e_c s1 < limit) by lia.
      destruct (choose t limit (e_c s1)) as [[b tl]|e1] eqn:EC; cbn [bind] in EB.
      + destruct (_ && _); [discriminate|]. destruct (_ =? index2NullOffset t); [discriminate|].
        destruct (i2bounds (e_c s1) b tl) as [i0 i1] eqn:EI.
        pose proof (window_of veq vf veq_spec _ _ _ _ _ _ _ Hc EC EI) as W.
        destruct (i2loop_ok b tl (py_range i0 (i1 + 1) 1)) with (s := set_i2block s1 b) as (s' & K); [|auto|congruence].
        intros i Hi. apply py_range_1_spec in Hi.
        destruct W as [W1 W2 Wb Wt Wi0 Wi1 | W1 Wb Wt Wi0 Wi1 | W1 Wb Wt Wi0 Wi1 Wi1' | W1 Wb Wt Wi0 Wi1].
        * apply (R_bmp t RO). lia.
        * apply (R_bmp t RO). lia.
        * apply (R_bmp t RO). lia.
        * destruct (R_supp t RO (e_c s1)) as (b' & E1 & E2); [lia|]. rewrite Wb in E1. injection E1 as <-.
          apply E2. destruct (_ =? _); lia.
      + unfold choose in EC. destruct (e_c s1 <=? 0xFFFF) eqn:E1.
        * destruct (negb _); [discriminate|]. destruct (isSurrogateLead _); discriminate.
        * change (INDEX_1_OFFSET - OMITTED_BMP_INDEX_1_LENGTH) with 2080 in EC. rewrite (shr11 veq vf veq_spec) in EC.
          destruct (R_supp t RO (e_c s1)) as (b' & E2 & _); [lia|]. rewrite E2 in EC. discriminate.
  Qed.
End T.
