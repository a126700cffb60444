(** * C129: enumerating 2048 code points at a time *)
From Coq Require Import ZArith List Bool Lia ZifyBool.
From Verif Require Import Py Arr UnicodeSet SpecSet UnicodeSetReach UnicodeSetViews Utilities UTrie2 UTrie2Enum UTrie2EnumVal CharProps CharRuns BidiProps BidiShipped CaseProps CaseShipped
  Prop_UTrie2 Prop_Collect.
Import ListNotations.
Open Scope Z_scope.

(** ** The loop of a caller:
[rs = []
for w in range(0, 0x110000, 0x800):
    if w == 0xD800: rs.extend((range(c, c + 1), vf(t.get(c))) for c in range(0xD800, 0xE000))
    else: rs.extend(t.enumerator(w, min(w + 0x800, 0x10FFFF), vf))] *)
Section Caller.
  Context {V : Type} (veq : V -> V -> bool) (vf : Z -> V) (t : utrie2).
  Fixpoint singles (cs : list Z) : res (list (Z * Z * V)) :=
    match cs with
    | [] => Ok []
    | c :: r => let* x := get t c in let* rs := singles r in Ok ((c, c + 1, vf x) :: rs)
    end.
  Definition piece (w : Z) : res (list (Z * Z * V)) :=
    if w =? 0xD800 then singles (py_range 0xD800 0xE000 1) else enumerator veq vf t (Z.min (w + 0x800) 0x10FFFF) w.
  Fixpoint pieces (ws : list Z) : res (list (Z * Z * V)) :=
    match ws with
    | [] => Ok []
    | w :: r => let* rs := piece w in let* rest := pieces r in Ok (rs ++ rest)
    end.
  Definition piecewise : res (list (Z * Z * V)) := pieces (py_range 0 0x110000 0x800).
End Caller.

(** every reference that is followed: the BMP index entries (with those of the lead surrogates), one entry past
    each index-2 block, and the high value *)
Record refs_in (t : utrie2) : Prop := {
  I_bmp : forall k, 0 <= k < 2080 -> exists x, aget (index t) k = Ok x /\ 0 <= x /\ 4 * x + 32 <= alen (index t);
  I_supp : forall c, 0x10000 <= c < highStart t -> exists b, aget (index t) (2080 + c / 2048) = Ok b /\
    forall k, 0 <= k <= 64 -> exists x, aget (index t) (b + k) = Ok x /\ 0 <= x /\ 4 * x + 32 <= alen (index t);
  I_high : 0 <= highValueIndex t < alen (index t) }.

Section W.
  Context {V : Type} (veq : V -> V -> bool) (vf : Z -> V) (t : utrie2).
  Hypothesis VE : forall a b, veq a b = true <-> a = b.
  Hypothesis NO : nulls_ok t.
  Hypothesis RO : refs_in t.
  Hypothesis HO : 0x10000 <= highStart t /\ highStart t mod 2048 = 0.
  Local Notation tiles := (@UTrie2Enum.tiles V).

  Lemma tiles_join (l m : list (Z * Z * V)) : forall a b c, tiles a l b -> tiles b m c -> tiles a (l ++ m) c.
  Proof. induction l as [|[[x y] v] l IH]; cbn [UTrie2Enum.tiles app]; intros a b c H K; [subst; exact K|]. destruct H as (-> & L & H). split; [reflexivity|]. split; [exact L|]. exact (IH y b c H K). Qed.
  Lemma agrees_join l m : agrees vf t l -> agrees vf t m -> agrees vf t (l ++ m).
  Proof. intros A B a b v x I. apply in_app_or in I as [I|I]; [exact (A a b v x I)|exact (B a b v x I)]. Qed.

  Lemma window_answered start limit : 0 <= start < limit -> limit <= 0xD800 \/ 0xE000 <= start -> exists rs, enumerator veq vf t limit start = Ok rs.
  Proof.
    intros SL SU. destruct (enumerator_terminates veq vf VE t start limit SL) as [H|H]; auto. exfalso. revert H.
    unfold enumerator. rewrite run_run_nat.
    destruct (run_nat_inv veq vf VE t limit (fun s => start <= e_c s)) with
      (n := Pos.to_nat (Z.to_pos (limit - start + 1))) (s := mkEst start start (vf 0) (-1) (-1) (@nil (Z * Z * V)))
      as [(s & E & HI & Hc)|(e & E & s1 & HI & Hl & Hh & EB)]; try (cbn [e_c]; lia).
    - intros s s' HI Hl Hh H. apply (c_outer veq vf VE t limit s s') in H; lia.
    - rewrite E. unfold finish. destruct (e_c s >? limit); [discriminate|].
      destruct (e_c s <? limit); [|discriminate].
      rewrite aget_Ok by apply (I_high t RO). discriminate.
    - rewrite E. intros _. unfold outer_body in EB.
      assert (Hc : 0 <= e_c s1 < limit) by lia.
      destruct (choose t limit (e_c s1)) as [[b tl]|e1] eqn:EC; cbn [bind] in EB.
      + destruct (_ && _); [discriminate|]. destruct (_ =? index2NullOffset t); [discriminate|].
        destruct (i2bounds (e_c s1) b tl) as [i0 i1] eqn:EI.
        pose proof (window_of veq vf VE _ _ _ _ _ _ _ Hc EC EI) as W.
        destruct (i2loop_ok veq vf VE t b tl (py_range i0 (i1 + 1) 1)) with (s := set_i2block s1 b) as (s' & K); [|cbn; lia|congruence].
        intros i Hi. apply py_range_1_spec in Hi.
        destruct W as [W1 W2 Wb Wt Wi0 Wi1 | W1 Wb Wt Wi0 Wi1 | W1 Wb Wt Wi0 Wi1 Wi1' | W1 Wb Wt Wi0 Wi1].
        * apply (I_bmp t RO). lia.
        * exfalso. lia.
        * exfalso. lia.
        * destruct (I_supp t RO (e_c s1)) as (b' & E1 & E2); [lia|]. rewrite Wb in E1. injection E1 as <-.
          apply E2. destruct (_ =? _); lia.
      + unfold choose in EC. destruct (e_c s1 <=? 0xFFFF) eqn:E1.
        * destruct (negb _); [discriminate|]. destruct (isSurrogateLead _); discriminate.
        * change (INDEX_1_OFFSET - OMITTED_BMP_INDEX_1_LENGTH) with 2080 in EC. rewrite (shr11 veq vf VE) in EC.
          destruct (I_supp t RO (e_c s1)) as (b' & E2 & _); [lia|]. rewrite E2 in EC. discriminate.
  Qed.
  Lemma surrogate_get c : 0xD800 <= c < 0xE000 -> exists x, get t c = Ok x.
  Proof.
    intros H. unfold get, indexFromCodePoint. replace (c <? 0xD800) with false by lia. replace (c <=? 0xFFFF) with true by lia.
    assert (K : forall off, 0 <= off + c / 32 < 2080 -> exists x, (let* i := indexRaw t off c in aget (index t) i) = Ok x).
    { intros off O. rewrite (raw_eq t off c). destruct (I_bmp t RO (off + c / 32) O) as (y & Y & Y0 & Y1). rewrite Y. cbn [bind].
      pose proof (Z.mod_pos_bound c 32 ltac:(lia)). eexists. apply aget_Ok. lia. }
    apply K. change (LSCP_INDEX_2_OFFSET - Z.shiftr 0xD800 SHIFT_2) with 320. pose proof (Z.div_mod c 32 ltac:(lia)). pose proof (Z.mod_pos_bound c 32 ltac:(lia)). destruct (c >=? 0xDC00) eqn:E; lia.
  Qed.
  Lemma singles_ok : forall n c, 0xD800 <= c -> c + Z.of_nat n <= 0xE000 -> exists rs, singles vf t (py_range c (c + Z.of_nat n) 1) = Ok rs /\ tiles c rs (c + Z.of_nat n) /\ agrees vf t rs.
  Proof.
    induction n as [|n IH]; intros c C H.
    - rewrite py_range_nil by lia. exists []. split; [reflexivity|]. split; [cbn [UTrie2Enum.tiles]; lia|intros a b v x []].
    - rewrite py_range_cons by lia. cbn [singles]. destruct (surrogate_get c ltac:(lia)) as (x & X). rewrite X. cbn [bind]. destruct (IH (c + 1)) as (rs & E & T & A); [lia|lia|].
      replace (c + Z.of_nat (S n)) with (c + 1 + Z.of_nat n) by lia. rewrite E. cbn [bind]. eexists. split; [reflexivity|]. split; [cbn [UTrie2Enum.tiles]; split; [reflexivity|split; [lia|exact T]]|].
      intros a b v y [I|I] R; [|exact (A a b v y I R)]. injection I as <- <- <-. assert (y = c) by lia. subst y. exists x. split; [exact X|reflexivity].
  Qed.
  Lemma piece_ok w : 0 <= w < 0x110000 -> w mod 2048 = 0 -> exists rs, piece veq vf t w = Ok rs /\ tiles w rs (Z.min (w + 2048) 0x10FFFF) /\ agrees vf t rs.
  Proof.
    intros B M. unfold piece. pose proof (Z.div_mod w 2048 ltac:(lia)) as D. rewrite M in D. destruct (w =? 0xD800) eqn:E.
    - assert (w = 0xD800) by lia. subst w. destruct (singles_ok 2048 0xD800) as (rs & S & T & A); [lia|lia|]. exists rs. split; [exact S|]. split; [exact T|exact A].
    - assert (L : 0 <= w < Z.min (w + 2048) 0x10FFFF) by lia. destruct (window_answered w (Z.min (w + 2048) 0x10FFFF) L ltac:(lia)) as (rs & R). exists rs. split; [exact R|].
      assert (O : one_window t w (Z.min (w + 2048) 0x10FFFF)).
      { unfold one_window. destruct (Z_lt_le_dec w 0x10000) as [X|X]; [left; split; [lia|]; destruct (Z_lt_le_dec w 0xD800); [left|right]; lia|]. right.
        destruct (Z_lt_le_dec w (highStart t)) as [Y|Y]; [left|right; lia]. split; [exact X|]. split; [|lia].
        assert (Q : forall k, 0 <= k < 2048 -> (w + k) / 2048 = w / 2048). { intros k Hk. replace (w + k) with (k + w / 2048 * 2048) by lia. rewrite Z.div_add by lia. rewrite (Z.div_small k) by lia. lia. }
        replace (Z.min (w + 2048) 0x10FFFF - 1) with (w + (Z.min (w + 2048) 0x10FFFF - 1 - w)) by lia. apply Q. lia. }
      assert (S : start_ok t w). { left. replace w with (w / 2048 * 64 * 32) by lia. apply Z_mod_mult. }
      destruct (C26_enumeration_agrees_partial V veq vf t w _ rs VE NO L O S HO R) as [[T _] A]. split; [exact T|exact A].
  Qed.
  Lemma pieces_ok : forall n k, 0 <= k -> k + Z.of_nat n = 544 -> exists rs, pieces veq vf t (map (fun i => 2048 * (k + Z.of_nat i)) (seq 0 n)) = Ok rs /\ tiles (Z.min (2048 * k) 0x10FFFF) rs 0x10FFFF /\ agrees vf t rs.
  Proof.
    induction n as [|n IH]; intros k K H.
    - exists []. split; [reflexivity|]. split; [cbn [UTrie2Enum.tiles]; lia|intros a b v x []].
    - cbn [seq map pieces]. replace (2048 * (k + Z.of_nat 0)) with (2048 * k) by lia. destruct (piece_ok (2048 * k)) as (rs & E & T & A); [lia|rewrite Z.mul_comm; apply Z_mod_mult|]. rewrite E. cbn [bind].
      destruct (IH (k + 1)) as (rest & E' & T' & A'); [lia|lia|]. rewrite <- seq_shift, map_map.
      replace (map (fun x => 2048 * (k + Z.of_nat (S x))) (seq 0 n)) with (map (fun i => 2048 * (k + 1 + Z.of_nat i)) (seq 0 n)) by (apply map_ext; intros i; lia).
      rewrite E'. cbn [bind]. exists (rs ++ rest). split; [reflexivity|]. split; [|apply agrees_join; [exact A|exact A']]. replace (Z.min (2048 * k) 0x10FFFF) with (2048 * k) by lia.
      apply (tiles_join rs rest _ (Z.min (2048 * k + 2048) 0x10FFFF)); [exact T|]. replace (2048 * k + 2048) with (2048 * (k + 1)) by lia. exact T'.
  Qed.
End W.
Lemma the_windows : py_range 0 0x110000 0x800 = map (fun i => 2048 * (0 + Z.of_nat i)) (seq 0 544).
Proof. vm_compute. reflexivity. Qed.

(** *** The ranges follow one another from 0 to 0x10FFFE, and every code point looks up to the value of its range.
    (Asking for everything at once does not: C26, C89.  For U+10FFFF see C24.) *)
Theorem C129_piecewise : forall V (veq : V -> V -> bool) vf t, (forall a b, veq a b = true <-> a = b) -> nulls_ok t -> refs_in t -> 0x10000 <= highStart t /\ highStart t mod 2048 = 0 ->
  exists rs, piecewise veq vf t = Ok rs /\ UTrie2Enum.tiles 0 rs 0x10FFFF /\ agrees vf t rs.
Proof. intros V veq vf t VE NO RO HO. unfold piecewise. rewrite the_windows. exact (pieces_ok veq vf t VE NO RO HO 544 0 ltac:(lia) ltac:(lia)). Qed.
Print Assumptions C129_piecewise.
(** *** A set collected from these ranges has exactly the code points whose value is kept. *)
Theorem C129_sets : forall V (veq : V -> V -> bool) vf t (keep : V -> bool), (forall a b, veq a b = true <-> a = b) -> nulls_ok t -> refs_in t -> 0x10000 <= highStart t /\ highStart t mod 2048 = 0 ->
  exists rs l, piecewise veq vf t = Ok rs /\ collect keep rs new_empty = Ok l /\
  forall c, is_cp c -> (contains l c = Ok true <-> c <> 0x10FFFF /\ exists x, get t c = Ok x /\ keep (vf x) = true).
Proof.
  intros V veq vf t keep VE NO RO HO. destruct (C129_piecewise V veq vf t VE NO RO HO) as (rs & E & T & A). destruct (tiles_in rs 0x10FFFF 0 T) as (_ & I & J).
  destruct (C124_collect V keep rs) as (l & C & _ & X); [intros a b v M; specialize (I a b v M); lia|]. exists rs, l. split; [exact E|]. split; [exact C|]. intros c Hc. destruct (X c Hc) as (y & Q & Y). rewrite Q.
  assert (G : Ok y = Ok true <-> y = true) by (split; congruence). rewrite G, Y. unfold is_cp in Hc. split.
  - intros (a & b & v & M & R & K). specialize (I a b v M). split; [lia|]. destruct (A a b v c M R) as (x & X1 & X2). exists x. split; [exact X1|]. rewrite X2. exact K.
  - intros (N & x & X1 & X2). destruct (J c ltac:(lia)) as (a & b & v & M & R). exists a, b, v. split; [exact M|]. split; [exact R|]. destruct (A a b v c M R) as (x' & X3 & <-). assert (x' = x) by congruence. subst x'. exact X2.
Qed.
Print Assumptions C129_sets.

(** ** The shipped tries *)
Definition refOk (t : utrie2) (k : Z) : bool := match aget (index t) k with Ok x => (0 <=? x) && (4 * x + 32 <=? alen (index t)) | Err _ => false end.
Definition upto (n : nat) : list Z := map Z.of_nat (seq 0 n).
Definition firstBlocks (t : utrie2) : list Z :=
  nodup Z.eq_dec (map (fun w => match aget (index t) (2080 + 32 + w) with Ok b => b | Err _ => -1 end) (upto (Z.to_nat (highStart t / 2048 - 32)))).
Definition usable (t : utrie2) (bs : list Z) : bool :=
  forallb (refOk t) (upto 2080) && forallb (fun b => forallb (fun k => refOk t (b + k)) (upto 65)) bs &&
  forallb (fun w => match aget (index t) (2080 + 32 + w) with Ok b => existsb (Z.eqb b) bs | Err _ => false end) (upto (Z.to_nat (highStart t / 2048 - 32))) &&
  (0 <=? highValueIndex t) && (highValueIndex t <? alen (index t)) && (0x10000 <=? highStart t) && (highStart t mod 2048 =? 0) &&
  forallb (fun j => match aget (index t) (dataNullOffset t + j) with Ok x => x =? initialValue t | Err _ => false end) (upto 32) &&
  forallb (fun j => match aget (index t) (index2NullOffset t + j) with Ok x => 4 * x =? dataNullOffset t | Err _ => false end) (upto 64).
Lemma upto_all (P : Z -> bool) n : forallb P (upto n) = true -> forall k, 0 <= k < Z.of_nat n -> P k = true.
Proof. intros H k K. rewrite forallb_forall in H. apply H. unfold upto. rewrite <- (Z2Nat.id k) by lia. apply in_map, in_seq. lia. Qed.
Lemma refOk_is t k : refOk t k = true -> exists x, aget (index t) k = Ok x /\ 0 <= x /\ 4 * x + 32 <= alen (index t).
Proof. unfold refOk. destruct (aget (index t) k) as [x|]; [|discriminate]. intros H. exists x. split; [reflexivity|]. lia. Qed.
Lemma usable_ok t bs : usable t bs = true -> nulls_ok t /\ refs_in t /\ (0x10000 <= highStart t /\ highStart t mod 2048 = 0).
Proof.
  unfold usable. intros H. do 8 (apply andb_true_iff in H as [H ?]). rename H into B1.
  match goal with X : forallb (fun b => forallb _ _) bs = true |- _ => rename X into B2 end.
  match goal with X : forallb (fun w => match aget _ (2080 + 32 + w) with _ => _ end) _ = true |- _ => rename X into B3 end.
  match goal with X : forallb (fun j => match aget _ (dataNullOffset t + j) with _ => _ end) _ = true |- _ => rename X into B4 end.
  match goal with X : forallb (fun j => match aget _ (index2NullOffset t + j) with _ => _ end) _ = true |- _ => rename X into B5 end.
  assert (HM : 0x10000 <= highStart t /\ highStart t mod 2048 = 0) by lia. split; [|split; [|exact HM]].
  - constructor.
    + intros j J. pose proof (upto_all _ 32 B4 j J) as X. cbv beta in X. destruct (aget _ _); [|discriminate]. f_equal. lia.
    + intros k K. pose proof (upto_all _ 64 B5 k K) as X. cbv beta in X. destruct (aget _ _) as [x|]; [|discriminate]. exists x. split; [reflexivity|lia].
  - constructor; [intros k K; apply refOk_is, (upto_all _ 2080 B1); lia| |lia].
    intros c C. pose proof (Z.div_mod (highStart t) 2048 ltac:(lia)). pose proof (Z.div_mod c 2048 ltac:(lia)). pose proof (Z.mod_pos_bound c 2048 ltac:(lia)).
    pose proof (upto_all _ _ B3 (c / 2048 - 32) ltac:(lia)) as X. cbv beta in X. replace (2080 + 32 + (c / 2048 - 32)) with (2080 + c / 2048) in X by lia. destruct (aget (index t) (2080 + c / 2048)) as [b|]; [|discriminate].
    exists b. split; [reflexivity|]. intros k K. apply existsb_exists in X as (b' & I & E). apply Z.eqb_eq in E. subst b'. rewrite forallb_forall in B2. specialize (B2 b I). apply refOk_is, (upto_all _ 65 B2). lia.
Qed.
Definition props_blocks : list Z := Eval vm_compute in firstBlocks (propsTrie icu).
Definition bidi_blocks : list Z := Eval vm_compute in firstBlocks (bidiPropsTrie icu_bidi).
Definition case_blocks : list Z := Eval vm_compute in firstBlocks (casePropsTrie icu_case).
Lemma props_usable : usable (propsTrie icu) props_blocks = true. Proof. vm_cast_no_check (eq_refl true). Qed.
Lemma bidi_usable : usable (bidiPropsTrie icu_bidi) bidi_blocks = true. Proof. vm_cast_no_check (eq_refl true). Qed.
Lemma case_usable : usable (casePropsTrie icu_case) case_blocks = true. Proof. vm_cast_no_check (eq_refl true). Qed.
(** *** The tries of character, bidi and case properties can be enumerated in this way, with any value function. *)
Theorem C129_shipped : forall V (veq : V -> V -> bool) vf, (forall a b, veq a b = true <-> a = b) -> Forall (fun t =>
  exists rs, piecewise veq vf t = Ok rs /\ UTrie2Enum.tiles 0 rs 0x10FFFF /\ agrees vf t rs) [propsTrie icu; bidiPropsTrie icu_bidi; casePropsTrie icu_case].
Proof.
  intros V veq vf VE. repeat constructor; apply C129_piecewise; try exact VE; first [apply (usable_ok _ _ props_usable)|apply (usable_ok _ _ bidi_usable)|apply (usable_ok _ _ case_usable)].
Qed.
Print Assumptions C129_shipped.
(** *** The set of the characters of one general category: no code point is wrong. *)
Theorem C129_category : forall w, exists rs l, piecewise Z.eqb generalCategoryFromProps (propsTrie icu) = Ok rs /\ collect (Z.eqb w) rs new_empty = Ok l /\
  forall c, 0 <= c < 0x10FFFF -> (contains l c = Ok true <-> getGeneralCategory icu c = Ok w).
Proof.
  intros w. destruct (usable_ok _ _ props_usable) as (NO & RO & HO). destruct (C129_sets Z Z.eqb generalCategoryFromProps (propsTrie icu) (Z.eqb w) Z.eqb_eq NO RO HO) as (rs & l & E & C & X).
  exists rs, l. split; [exact E|]. split; [exact C|]. intros c Hc. rewrite (X c) by (clear - Hc; unfold is_cp; lia). unfold getGeneralCategory. split.
  - intros (_ & x & G & K). rewrite G. cbn [bind]. f_equal. symmetry. apply Z.eqb_eq. exact K.
  - intros G. split; [clear - Hc; lia|]. destruct (get (propsTrie icu) c) as [x|]; [|discriminate]. exists x. split; [reflexivity|]. apply Z.eqb_eq. cbn [bind] in G. congruence.
Qed.
Print Assumptions C129_category.
Example C129_case : piece Z.eqb (fun v => v) t26 0 = Ok [(0, 0x800, 0)] /\ piece Z.eqb (fun v => v) t26 0x800 = Ok [(0x800, 0x1000, 1)] /\ nulls_ok t26 /\ enumerator Z.eqb (fun v => v) t26 0x1000 0 = Ok [(0, 0x1000, 0)].
Proof. split; [vm_compute; reflexivity|]. split; [vm_compute; reflexivity|]. split; [exact (proj1 C26_case)|vm_compute; reflexivity]. Qed.
