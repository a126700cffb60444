(** * Property C121: what becomes of the CPTrie enumerations that are not answered *)
From Coq Require Import ZArith List Bool Lia ZifyBool.
From Verif Require Import Py Arr Bytes UnicodeSet UTrie2Lookup UTrie2Build UTrie2Enum CPTrie CPTrieLookup CPTrieBuild CPTrieEnum CPTrieNever CPTrieExact UTrie2Lazy CPTrieLazy CPTrieStuck Prop_CPTrie Prop_CPExact Normalizer2.
Import ListNotations.
Open Scope Z_scope.

(** [cpenumL t fuel start limit] has the ranges that are yielded in [fuel] passes of the loop, and how the generator has ended:
    [None] if it has, an exception if it raised one, [OutOfFuel] if it is still running.  Without the ranges it is [cpenum]. *)
Theorem C121_same : forall t fuel start limit, outcome (cpenumL t fuel start limit) = cpenum t fuel start limit.
Proof. exact cpenum_sameC. Qed.
Print Assumptions C121_same.
(** Ranges once yielded stay. *)
Theorem C121_grows : forall t n m start limit, (n <= m)%nat -> exists l, fst (cpenumL t m start limit) = fst (cpenumL t n start limit) ++ l.
Proof. exact cpenumL_more. Qed.
Print Assumptions C121_grows.

(** a code point in the second half of an index-3 block that is not the null block *)
Definition second_half (L : cplayout) (m : Z) : Prop := q_limit L <= m /\ 256 <= m mod 512 /\ i3_ref L (i3_num L m) <> q_null3 L.
(** the first code point that the request cannot pass *)
Definition obstacle (L : cplayout) (start limit o : Z) : Prop := start <= o < q_stop L limit /\
  ((q_fast L = true /\ start <= 0xFFFF /\ o = Z.max start 0x1000) \/
   (~ (q_fast L = true /\ start <= 0xFFFF) /\ second_half L o /\ forall m, start <= m < o -> ~ second_half L m)).

Lemma first_or_none (p : Z -> bool) n : forall a, (forall m, a <= m < a + Z.of_nat n -> p m = false) \/
  exists o, a <= o < a + Z.of_nat n /\ p o = true /\ forall m, a <= m < o -> p m = false.
Proof.
  induction n as [|n IH]; intros a; [left; intros m H; lia|]. destruct (p a) eqn:E.
  - right. exists a. split; [lia|]. split; [exact E|]. intros m H. lia.
  - destruct (IH (a + 1)) as [H|(o & H1 & H2 & H3)].
    + left. intros m Hm. destruct (Z.eq_dec m a) as [->|]; [exact E|]. apply H. lia.
    + right. exists o. split; [lia|]. split; [exact H2|]. intros m Hm. destruct (Z.eq_dec m a) as [->|]; [exact E|]. apply H3. lia.
Qed.
Definition second_halfb (L : cplayout) (m : Z) : bool := (q_limit L <=? m) && (256 <=? m mod 512) && negb (i3_ref L (i3_num L m) =? q_null3 L).
Lemma second_halfb_true L m : second_halfb L m = true <-> second_half L m.
Proof. unfold second_halfb, second_half. split; [intros H; apply andb_true_iff in H as [H1 H2]; apply andb_true_iff in H1 as [H0 H1]; lia|intros (H1 & H2 & H3); lia]. Qed.
Lemma obstacle_unique L start limit o o' : obstacle L start limit o -> obstacle L start limit o' -> o = o'.
Proof.
  intros [R [(F & S & ->)|(N & H & M)]] [R' [(F' & S' & ->)|(N' & H' & M')]]; try reflexivity; try (exfalso; auto; fail).
  destruct (Z.lt_trichotomy o o') as [Q|[Q|Q]]; [exfalso; apply (M' o); [lia|exact H]|exact Q|exfalso; apply (M o'); [lia|exact H']].
Qed.
Lemma obstacle_exists L start limit : start < q_highStart L -> start < limit -> ~ clear L start limit -> exists o, obstacle L start limit o.
Proof.
  intros SH SL C. unfold obstacle. assert (ST : start < q_stop L limit) by (unfold q_stop; lia).
  assert (D : {q_fast L = true /\ start <= 0xFFFF} + {~ (q_fast L = true /\ start <= 0xFFFF)}).
  { destruct (q_fast L); [destruct (Z_le_gt_dec start 0xFFFF); [left; auto|right; lia]|right; intros [Q _]; discriminate]. }
  assert (SEC : (forall m, start <= m < q_stop L limit -> second_halfb L m = false) -> forall m, start <= m < q_stop L limit -> q_limit L <= m -> 256 <= m mod 512 -> i3_ref L (i3_num L m) = q_null3 L).
  { intros H m Hm LM MM. specialize (H m Hm). unfold second_halfb in H. clear C. lia. }
  assert (QL : 0x1000 <= q_limit L) by (unfold q_limit; destruct (q_fast L); lia).
  destruct D as [[F S]|N].
  - destruct (Z_le_gt_dec (q_stop L limit) 0x1000) as [Q|Q].
    + exfalso. apply C. split; [intros; exact Q|]. intros m Hm. lia.
    + exists (Z.max start 0x1000). split; [lia|]. left. auto.
  - destruct (first_or_none (second_halfb L) (Z.to_nat (q_stop L limit - start)) start) as [H|(o & H1 & H2 & H3)].
    + exfalso. apply C. split; [intros F S; exfalso; auto|]. apply SEC. intros m Hm. apply H. lia.
    + exists o. split; [lia|]. right. split; [exact N|]. split; [apply second_halfb_true; exact H2|]. intros m Hm Q. apply second_halfb_true in Q. rewrite H3 in Q by exact Hm. discriminate.
Qed.

(** A request that meets an obstacle [o] yields all but the last range of the answer to the request that ends at [o], and then
    raises AssertionError if there are 512 code points before [o] (and [o] is not in the linear part of a FAST trie), or else loops for ever. *)
Theorem C121_stuck : forall L start limit o, null_ok L -> 0 <= start < limit -> start < q_highStart L -> obstacle L start limit o ->
  exists rs N, (forall fuel, (N < fuel)%nat ->
      cpenumL (cp_serialize L) fuel start limit = (rs, Some (if (q_limit L <=? o) && (512 <=? o - start) then AssertionError else OutOfFuel))) /\
    ((start = o /\ rs = []) \/ (start < o /\ exists fuel a v, cpenum (cp_serialize L) fuel start o = Ok (rs ++ [(a, o, v)]))).
Proof.
  intros L start limit o NK SL SH [RO OB]. pose proof (nk_ok L NK) as K. pose proof (layout_regular L NK) as RG. set (t := cp_serialize L) in *.
  destruct (rg_null t RG) as [null V]. assert (NV := V 0 ltac:(lia)). rewrite Z.add_0_r in NV.
  assert (OH : o < q_stop L limit) by lia. unfold q_stop in OH.
  assert (TY : cp_type t = TYPE_FAST <-> q_fast L = true) by (unfold t, cp_serialize; cbn [cp_type]; destruct (q_fast L); split; auto; discriminate).
  change (q_highStart L) with (cp_highStart t) in *.
  destruct OB as [(F & S & ->)|(N & (H1 & H2 & H3) & M)].
  - assert (QL : q_limit L = 0x10000) by (unfold q_limit; rewrite F; reflexivity). replace (q_limit L <=? Z.max start 0x1000) with false by lia. cbn [andb].
    assert (T : cp_type t = TYPE_FAST) by (apply TY; exact F).
    destruct (Z_lt_le_dec start 0x1000) as [Q|Q].
    + replace (Z.max start 0x1000) with 0x1000 in * by lia.
      destruct (fast_run t RG null NV start limit SL SH Q ltac:(lia) ltac:(lia)) as (m & s & fuel & R & C & E). apply run_inl in R.
      exists (rev (k_out s)), m. split; [|right; split; [lia|exists fuel, (k_prev s), (k_value s); exact E]].
      apply (lazy_from t RG null NV start limit SH m s R OutOfFuel). left. split; [reflexivity|]. apply fast_step; [exact T|lia|lia|lia].
    + replace (Z.max start 0x1000) with start in * by lia. exists [], 0%nat. split; [|left; auto].
      apply (lazy_from t RG null NV start limit SH 0 (mkCst start start null (-1) (-1) []) eq_refl OutOfFuel). left. split; [reflexivity|]. apply fast_step; [exact T|cbn [k_c]; lia|cbn [k_c]; lia|cbn [k_c]; lia].
  - replace (q_limit L <=? o) with true by lia. cbn [andb].
    assert (QL : 0x1000 <= q_limit L) by (unfold q_limit; destruct (q_fast L); lia).
    assert (MO : multi t o) by (apply multi_limit; exact H1).
    assert (I3 : forall m, start <= m < cp_highStart t -> q_limit L <= m -> i3BlockOf t m = Ok (i3_ref L (i3_num L m))).
    { intros m Hm Q. change (cp_highStart t) with (q_highStart L) in Hm. destruct (i3Block_ok L K m ltac:(lia)) as [_ E]. exact E. }
    assert (IO := I3 o ltac:(lia) H1).
    destruct (Z.eq_dec start o) as [<-|NE].
    + replace (512 <=? start - start) with false by lia.
      destruct (half_step t RG null start limit SL SH (i3_ref L (i3_num L start)) MO H2 IO H3) as (s & E1 & E2 & C & O). exists [], 1%nat. split; [|left; auto]. assert (O' : rev (k_out s) = []) by (rewrite O; reflexivity). rewrite <- O'.
      apply (lazy_from t RG null NV start limit SH 1 s); [cbn [run_nat]; rewrite E1; reflexivity|]. left. split; [reflexivity|exact E2].
    + assert (SO : start < o < limit) by lia.
      assert (O5 : o mod 512 = 256).
      { destruct (Z.eq_dec (o mod 512) 256) as [Q|Q]; [exact Q|]. exfalso. apply (M (o - 1) ltac:(lia)).
        assert (DV : (o - 1) / 512 = o / 512 /\ (o - 1) mod 512 = o mod 512 - 1).
        { clear - H2 Q. pose proof (Z.mod_pos_bound o 512 ltac:(lia)). pose proof (Z.div_mod o 512 ltac:(lia)).
          assert (X : (o - 1) / 512 = o / 512) by (symmetry; apply (Z.div_unique_pos (o - 1) 512 (o / 512) (o mod 512 - 1)); lia).
          split; [exact X|]. pose proof (Z.div_mod (o - 1) 512 ltac:(lia)). lia. }
        destruct DV as [D1 D2].
        assert (LM : q_limit L <= o - 1).
        { unfold q_limit in *. destruct (q_fast L); [|]; clear - H1 H2; (destruct (Z.eq_dec o 0x10000) as [->|]; [vm_compute in H2; exfalso; apply H2; reflexivity|]) || idtac; (destruct (Z.eq_dec o 0x1000) as [->|]; [vm_compute in H2; exfalso; apply H2; reflexivity|]) || idtac; lia. }
        assert (IM := I3 (o - 1) ltac:(lia) LM). assert (EQ := i3BlockOf_same t (o - 1) o D1). rewrite IM, IO in EQ.
        split; [exact LM|]. split; [lia|]. intros X. apply H3. congruence. }
      assert (RE : reach t start o).
      { apply (reach_clear L start o NK); [lia|]. split.
        - intros F S. exfalso. apply N. auto.
        - intros m Hm LM MM. destruct (Z.eq_dec (i3_ref L (i3_num L m)) (q_null3 L)) as [Q|Q]; [exact Q|]. exfalso. unfold q_stop in Hm. apply (M m ltac:(lia)). split; [exact LM|]. split; [exact MM|exact Q]. }
      assert (OC : o < cp_highStart t) by lia.
      destruct (middle t RG null NV start limit SL SH o SO OC MO O5 _ IO H3 RE) as (m & s & fuel & R & C & C3 & E). apply run_inl in R.
      exists (rev (k_out s)), m. split; [|right; split; [lia|exists fuel, (k_prev s), (k_value s); exact E]].
      apply (lazy_from t RG null NV start limit SH m s R). pose proof (middle_step t RG null start limit o SO OC MO O5 _ IO H3 s C C3) as ST.
      destruct (Z_lt_le_dec (o - start) 512) as [D|D].
      * left. replace (512 <=? o - start) with false by lia. replace (o - start >=? 512) with false in ST by lia. split; [reflexivity|exact ST].
      * right. replace (512 <=? o - start) with true by lia. replace (o - start >=? 512) with true in ST by lia. split; [reflexivity|exact ST].
Qed.
Print Assumptions C121_stuck.

(** Every request is answered, or it meets one obstacle; which of the two does not depend on the number of passes. *)
Theorem C121_every : forall L start limit, null_ok L -> 0 <= start < limit -> start < q_highStart L ->
  (clear L start limit /\ exists rs N, forall fuel, (N <= fuel)%nat -> cpenumL (cp_serialize L) fuel start limit = (rs, None)) \/
  (~ clear L start limit /\ exists o, obstacle L start limit o /\ forall o', obstacle L start limit o' -> o' = o).
Proof.
  intros L start limit NK SL SH. destruct (C28_answered L start limit NK SL SH) as [A _].
  assert (D : clear L start limit \/ ~ clear L start limit).
  { unfold clear. destruct (first_or_none (second_halfb L) (Z.to_nat (q_stop L limit - start)) start) as [H|(o & H1 & H2 & H3)].
    - destruct (q_fast L) eqn:F.
      + destruct (Z_le_gt_dec start 0xFFFF) as [S|S]; [destruct (Z_le_gt_dec (q_stop L limit) 0x1000) as [T|T]|].
        * left. split; [intros; exact T|]. intros m Hm Q. unfold q_limit in Q. rewrite F in Q. lia.
        * right. intros [C _]. specialize (C eq_refl S). lia.
        * left. split; [intros; lia|]. intros m Hm LM MM. specialize (H m ltac:(lia)). unfold second_halfb in H. lia.
      + left. split; [intros; discriminate|]. intros m Hm LM MM. specialize (H m ltac:(lia)). unfold second_halfb in H. lia.
    - right. intros [_ C]. apply second_halfb_true in H2 as (X1 & X2 & X3). apply X3. apply C; [lia|exact X1|exact X2]. }
  destruct D as [D|D].
  - left. split; [exact D|]. apply A in D as (N & rs & E). exists rs, N. intros fuel F. apply (cpenum_more _ N fuel) in E; [|exact F].
    rewrite <- cpenum_sameC in E. destruct (cpenumL (cp_serialize L) fuel start limit) as [x [e|]]; cbn [outcome] in E; [discriminate|]. congruence.
  - right. split; [exact D|]. destruct (obstacle_exists L start limit SH ltac:(lia) D) as [o O]. exists o. split; [exact O|]. intros o' O'. apply (obstacle_unique L start limit o' o O' O).
Qed.
Print Assumptions C121_every.

(** The trie of C28_answered_case: a request up to the end of Unicode raises AssertionError at U+3F00 ... *)
Lemma L28x_obstacle start limit : 0 <= start <= 0x3F00 -> 0x3F00 < limit -> obstacle L28x start limit 0x3F00.
Proof.
  intros S H. split; [unfold q_stop; cbn [L28x q_highStart]; lia|]. right. split; [intros [Q _]; discriminate|]. split; [vm_compute; intuition discriminate|].
  intros m Hm (H1 & H2 & H3). change (q_limit L28x) with 0x1000 in H1.
  apply H3. assert (D : m / 512 < 31).
  { clear - Hm H2. pose proof (Z.div_mod m 512 ltac:(lia)). lia. }
  assert (D2 : 8 <= m / 512) by (clear - H1; pose proof (Z.div_mod m 512 ltac:(lia)); pose proof (Z.mod_pos_bound m 512 ltac:(lia)); lia).
  assert (D3 : m / 16384 = 0) by (apply Z.div_small; lia).
  unfold i3_num. change (q_first L28x) with 0. rewrite Z.sub_0_r, D3. rewrite (Z.mod_small (m / 512) 32) by lia.
  change (znthl (q_i2 L28x) (znth (q_i1 L28x) 0)) with (ztab 32 (fun k => if k =? 31 then 1 else 0)). rewrite znth_ztab by lia. replace (m / 512 =? 31) with false by lia. reflexivity.
Qed.
Example C121_case : null_ok L28x /\ obstacle L28x 0xF00 0x110000 0x3F00 /\
  cpenumL (cp_serialize L28x) 99 0xF00 0x110000 =
    ([(0xF00, 0xF80, 0); (0xF80, 0xFB4, 1); (0xFB4, 0x1000, 2); (0x1000, 0x3E00, 0); (0x3E00, 0x3E5C, 1); (0x3E5C, 0x3E60, 2); (0x3E60, 0x3E64, 1)], Some AssertionError).
Proof. split; [apply L28x_null_ok|]. split; [apply L28x_obstacle; lia|]. vm_compute. reflexivity. Qed.
(** ... and one from U+3E10 gives three ranges and then loops for ever. *)
Example C121_loop_case : obstacle L28x 0x3E10 0x110000 0x3F00 /\ exists N, forall fuel, (N < fuel)%nat ->
  cpenumL (cp_serialize L28x) fuel 0x3E10 0x110000 = ([(0x3E10, 0x3E5C, 1); (0x3E5C, 0x3E60, 2); (0x3E60, 0x3E64, 1)], Some OutOfFuel).
Proof.
  assert (O : obstacle L28x 0x3E10 0x110000 0x3F00) by (apply L28x_obstacle; lia). split; [exact O|].
  destruct (C121_stuck L28x 0x3E10 0x110000 0x3F00 L28x_null_ok ltac:(lia) ltac:(reflexivity) O) as (rs & N & H & [[Q _]|(_ & f & a & v & E)]); [discriminate Q|].
  exists N. intros fuel F. rewrite (H fuel F). change ((q_limit L28x <=? 0x3F00) && (512 <=? 0x3F00 - 0x3E10)) with false. cbv iota. f_equal.
  assert (E1 : cpenum (cp_serialize L28x) 9 0x3E10 0x3F00 = Ok ([(0x3E10, 0x3E5C, 1); (0x3E5C, 0x3E60, 2); (0x3E60, 0x3E64, 1)] ++ [(0x3E64, 0x3F00, 2)])) by (vm_compute; reflexivity).
  assert (E2 := cpenum_same _ _ _ _ _ _ _ E E1). apply app_inj_tail in E2. apply E2.
Qed.

(** The trie of the normalisation data: whoever enumerates it with the default arguments gets the values of the characters up to some
    point before U+1000, all of them right, and then waits for ever. *)
Definition nfc_first : list (Z * Z * Z) := Eval vm_compute in fst (cpenumL nfc_trie 1 0 0x110000).
Definition span (r : Z * Z * Z) : list Z := py_range (fst (fst r)) (snd (fst r)) 1.
Fixpoint tilesb (lo : Z) (rs : list (Z * Z * Z)) (hi : Z) : bool :=
  match rs with [] => lo =? hi | (a, b, _) :: r => (a =? lo) && (a <? b) && tilesb b r hi end.
Lemma tilesb_ok rs : forall lo hi, tilesb lo rs hi = true -> tiles lo rs hi.
Proof.
  induction rs as [|[[a b] v] rs IH]; cbn [tilesb tiles]; intros lo hi H; [apply Z.eqb_eq; exact H|].
  apply andb_true_iff in H as [H1 H2]. apply andb_true_iff in H1 as [H0 H1]. split; [lia|]. split; [lia|]. apply IH. exact H2.
Qed.
Definition right_values (t : cptrie) (rs : list (Z * Z * Z)) : bool := forallb (fun r => forallb (fun x => match cpget t x with Ok v => v =? snd r | Err _ => false end) (span r)) rs.
Theorem C121_nfc : tiles 0 nfc_first 0xFC7 /\ (forall a b v x, In (a, b, v) nfc_first -> a <= x < b -> cpget nfc_trie x = Ok v) /\
  forall fuel, (1 <= fuel)%nat -> cpenumL nfc_trie fuel 0 0x110000 = (nfc_first, Some OutOfFuel).
Proof.
  split; [apply tilesb_ok; vm_compute; reflexivity|]. split.
  - intros a b v x I H. assert (R : right_values nfc_trie nfc_first = true) by (vm_cast_no_check (eq_refl true)). unfold right_values in R. rewrite forallb_forall in R. specialize (R _ I).
    rewrite forallb_forall in R. specialize (R x). unfold span in R. cbn [fst snd] in R.
    assert (J : In x (py_range a b 1)).
    { clear R I. unfold py_range. replace ((b - a + 1 - 1) / 1) with (b - a) by (rewrite Z.div_1_r; lia). apply in_map_iff. exists (Z.to_nat (x - a)). split; [lia|]. apply in_seq. lia. }
    specialize (R J). destruct (cpget nfc_trie x) as [w|e]; [|discriminate]. f_equal. lia.
  - intros fuel F. destruct fuel as [|fuel]; [lia|]. unfold cpenumL. change ((0 >=? 0x110000) || (0 >=? cp_highStart nfc_trie)) with false. cbv iota.
    assert (N : aget (cp_data nfc_trie) (cp_dataNullOffset nfc_trie) = Ok 1) by (vm_compute; reflexivity). rewrite N. cbn [run_nat].
    set (s0 := mkCst 0 0 1 (-1) (-1) []).
    assert (E : exists p v bl i3, cp_stepL nfc_trie 0 0x110000 1 s0 = inl (mkCst 0x1000 p v bl i3 (rev nfc_first))) by (do 4 eexists; vm_compute; reflexivity).
    destruct E as (p & v & bl & i3 & E). rewrite E. rewrite loops_for_ever; [cbn [k_out]; rewrite rev_involutive; reflexivity|].
    apply fast_step; [reflexivity|cbn [k_c]; lia|cbn [k_c]; lia|cbn [k_c]; reflexivity].
Qed.
Print Assumptions C121_nfc.
