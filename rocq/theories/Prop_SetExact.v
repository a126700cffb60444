(** * Exact answers where C08, C11, C15, C16 and C18 hold only in part

    Each theorem says for every reachable set and every argument of the domain what the call gives,
    so that a caller can tell when the property of the same number holds. *)
From Coq Require Import ZArith List Bool Lia Sorted ZifyBool.
From Verif Require Import Py UnicodeSet UnicodeSetFacts UnicodeSetMerge UnicodeSetUnion UnicodeSetOps UnicodeSetViews SpecSet UnicodeSetHeap UnicodeSetReach UnicodeSetLaws.
Import ListNotations.
Open Scope Z_scope.

(** ** Lists and their pairs *)
Lemma odd_SS n : Z.odd (n + 1 + 1) = Z.odd n.
Proof. rewrite !odd_S, negb_involutive. reflexivity. Qed.
Lemma pairs_split : forall l u v, In (u, v) (pairs l) -> exists p s, l = p ++ u :: v :: s /\ Z.odd (zlen p) = false.
Proof.
  fix IH 1. intros [|a [|b r]] u v H; try destruct H as [].
  - injection H as <- <-. exists [], r. auto.
  - destruct (IH r u v H) as (p & s & -> & O). exists (a :: b :: p), s. split; [reflexivity|].
    rewrite !zlen_cons, odd_SS. exact O.
Qed.
Lemma pairs_there : forall p u v s, Z.odd (zlen p) = false -> In (u, v) (pairs (p ++ u :: v :: s)).
Proof.
  fix IH 1. intros [|a [|b r]] u v s O; [left; reflexivity|discriminate|]. right. apply IH.
  rewrite !zlen_cons, odd_SS in O. exact O.
Qed.
Lemma first_above a : forall p x s q y t, p ++ x :: s = q ++ y :: t -> Forall (fun z => z <= a) p -> a < x ->
  Forall (fun z => z <= a) q -> a < y -> p = q /\ x = y /\ s = t.
Proof.
  induction p as [|c p IH]; intros x s [|d q] y t E F X G Y; cbn [app] in E; injection E as E1 E2.
  - auto.
  - inversion G; subst. lia.
  - inversion F; subst. lia.
  - inversion F; inversion G; subst. destruct (IH x s q y t E2) as (-> & -> & ->); auto.
Qed.

(** ** C08: the range operations for every pair of code points *)
Theorem C08_exact : forall A s a b, built A -> is_set A s -> is_cp a -> is_cp b ->
  exists r1 r2 r3,
    removeRange A a b = Ok r1 /\ is_set r1 (if a <? b then s_diff s (s_span a b) else s) /\
    retainRange A a b = Ok r2 /\ is_set r2 (if a <? b then s_inter s (s_span a b) else s) /\
    complementRange A a b = Ok r3 /\ is_set r3 (if a <? b then s_xor s (s_span a b) else s).
Proof.
  intros A s a b B I Ha Hb. destruct (a <? b) eqn:E.
  - destruct (proj1 (removeRange_ok A s a b B I Ha Hb) ltac:(lia)) as (r1 & E1 & _ & I1).
    destruct (proj1 (retainRange_ok A s a b B I Ha Hb) ltac:(lia)) as (r2 & E2 & _ & I2).
    destruct (proj1 (complementRange_ok A s a b B I Ha Hb) ltac:(lia)) as (r3 & E3 & _ & I3).
    exists r1, r2, r3. repeat (split; [assumption|]). assumption.
  - exists A, A, A. unfold removeRange, retainRange, complementRange. rewrite range_noop, E by auto. repeat (split; [auto|]). auto.
Qed.
Print Assumptions C08_exact.
Example C08_exact_case : removeRange [65; 91; 0x110000] 70 70 = Ok [65; 91; 0x110000] /\
  removeRange [65; 91; 0x110000] 70 71 = Ok [65; 70; 72; 91; 0x110000] /\ removeRange [65; 91; 0x110000] 71 70 = Ok [65; 91; 0x110000].
Proof. vm_compute. auto. Qed.

(** ** C16: above the code points every set gives one and the same answer *)
Lemma find_large A x : WF A -> x >= HIGH -> findCodePoint A x = Ok (zlen A - 1).
Proof.
  intros (So & Bd & N & L) Hx. destruct A as [|y l]; [congruence|]. unfold findCodePoint.
  rewrite py_get_cons_0. cbn [bind]. pose proof Bd as Bd0. inversion Bd0 as [|y0 l0 Hy Hl]; subst.
  destruct (x <? y) eqn:E; [lia|]. destruct (0 >=? zlen (y :: l) - 1) eqn:E2; [reflexivity|].
  rewrite py_get_znth by lia. cbn [bind].
  assert (Hz : znth (y :: l) (zlen (y :: l) - 1 - 1) <= HIGH).
  { rewrite Forall_forall in Bd. apply Bd. unfold znth. apply nth_In. unfold zlen in *. lia. }
  destruct (x >=? _) eqn:E3; [reflexivity|lia].
Qed.
Lemma contains_above A x : WF A -> x >= HIGH -> contains A x = Ok (negb (Z.odd (zlen A))).
Proof.
  intros W Hx. unfold contains. rewrite find_large by auto. cbn [bind]. rewrite land1_odd. f_equal.
  replace (zlen A) with (zlen A - 1 + 1) at 2 by lia. rewrite odd_S, negb_involutive. reflexivity.
Qed.
Theorem C16_exact : forall A x, built A -> x > 0x10FFFF ->
  contains A x = contains A 0x110000 /\
  (clean A -> contains A x = contains A 0x10FFFF) /\
  (contains A x = Ok true <-> exists p q, getRanges A = Ok (p ++ [q]) /\ Z.of_nat (List.length A) = 2 * Z.of_nat (List.length (p ++ [q]))).
Proof.
  intros A x B Hx. pose proof (built_WF _ B) as W. rewrite !contains_above by (unfold HIGH; auto; lia). split; [reflexivity|]. split.
  - intros C. apply clean_Canon in C as [_ St]. rewrite contains_par by (auto; unfold HIGH; lia). f_equal.
    destruct W as (So & Bd & N & La). destruct (exists_last N) as (p & z & ->). rewrite last_last in La. subst z.
    rewrite par_app, par_le.
    + rewrite (par_gt [HIGH]) by (repeat constructor; unfold HIGH; lia). rewrite zlen_app. change (zlen [HIGH]) with 1. rewrite odd_S.
      destruct (Z.odd (zlen p)); reflexivity.
    + apply Forall_forall. intros y Hy. apply strict_app_inv in St as (_ & _ & K). specialize (K y HIGH Hy (or_introl eq_refl)). unfold HIGH in K. lia.
  - rewrite getRanges_pairs. pose proof (pairs_length A) as PL. split.
    + intros E. assert (O : Z.odd (zlen A) = false) by (destruct (Z.odd (zlen A)); [discriminate|reflexivity]).
      assert (D : zlen A = 2 * (zlen A / 2)) by (pose proof (Z.div_mod (zlen A) 2 ltac:(lia)) as Q; rewrite Zmod_odd, O in Q; lia).
      assert (NN : pairs A <> []).
      { destruct W as (_ & _ & N & _). destruct A as [|u [|v r]]; [congruence|discriminate O|discriminate]. }
      destruct (exists_last NN) as (p & q & Q). exists p, q. rewrite <- Q. split; [reflexivity|].
      rewrite PL. unfold zlen in D. rewrite Nat2Z.inj_div. exact D.
    + intros (p & q & Q & D). injection Q as Q. rewrite <- Q in D. rewrite PL in D. unfold zlen. rewrite D, Z.odd_mul. reflexivity.
Qed.
Print Assumptions C16_exact.
(** U+10FFFF alone by the constructor and by [add]: the first does not contain 0x110000, the second does. *)
Example C16_exact_case : contains (new_int 0x10FFFF) 0x200000 = Ok false /\ add new_empty 0x10FFFF = Ok [0x10FFFF; 0x110000] /\
  contains [0x10FFFF; 0x110000] 0x200000 = Ok true.
Proof. vm_compute. auto. Qed.

(** ** C11: two sets are equal if and only if they list the same ranges and answer the same about 0x110000 *)
Lemma pairs_same : forall A B, pairs A = pairs B -> Z.odd (zlen A) = false -> Z.odd (zlen B) = false -> A = B.
Proof.
  fix IH 1. intros [|a [|b r]] [|c [|d t]] E OA OB; try discriminate; [reflexivity|].
  cbn [pairs] in E. injection E as -> -> E. f_equal. f_equal. rewrite !zlen_cons, odd_SS in OA, OB. exact (IH r t E OA OB).
Qed.
Lemma pairs_snoc : forall p x, Z.odd (zlen p) = false -> pairs (p ++ [x]) = pairs p.
Proof.
  fix IH 1. intros [|a [|b r]] x O; [reflexivity|discriminate|]. cbn [app pairs]. f_equal. apply IH.
  rewrite !zlen_cons, odd_SS in O. exact O.
Qed.
Theorem C11_exact : forall A B, built A -> built B ->
  (UnicodeSet.eq A B = true <-> getRanges A = getRanges B /\ contains A 0x110000 = contains B 0x110000).
Proof.
  intros A B BA BB. pose proof (built_WF _ BA) as WA. pose proof (built_WF _ BB) as WB. split.
  - intros E. apply eq_sound in E. subst. auto.
  - rewrite !getRanges_pairs, !contains_above by (unfold HIGH; auto; lia). intros [[= E] [= O]]. unfold UnicodeSet.eq. apply list_eqb_eq.
    assert (O1 : Z.odd (zlen A) = Z.odd (zlen B)) by (destruct (Z.odd (zlen A)), (Z.odd (zlen B)); auto; discriminate). clear O.
    destruct (Z.odd (zlen B)) eqn:OB; [|apply pairs_same; auto].
    destruct WA as (_ & _ & NA & LA), WB as (_ & _ & NB & LB).
    destruct (exists_last NA) as (p & y & ->), (exists_last NB) as (q & z & ->). rewrite last_last in *. subst y z. f_equal.
    rewrite zlen_app in *. change (zlen [HIGH]) with 1 in *. rewrite odd_S in *.
    assert (P : Z.odd (zlen p) = false) by (destruct (Z.odd (zlen p)); [discriminate|reflexivity]).
    assert (Q : Z.odd (zlen q) = false) by (destruct (Z.odd (zlen q)); [discriminate|reflexivity]).
    rewrite !pairs_snoc in E by auto. apply pairs_same; auto.
Qed.
Print Assumptions C11_exact.
Example C11_exact_case : getRanges (new_range 5 0x110000) = getRanges [5; 0x110000] /\
  contains (new_range 5 0x110000) 0x110000 = Ok false /\ contains [5; 0x110000] 0x110000 = Ok true /\ UnicodeSet.eq (new_range 5 0x110000) [5; 0x110000] = false.
Proof. vm_compute. auto. Qed.

(** ** C15: the answer is True exactly if one of the listed ranges has the whole range in it *)
Theorem C15_exact : forall A a b, built A -> is_cp a ->
  exists r rs, contains_range A a b = Ok r /\ getRanges A = Ok rs /\
    (r = true <-> exists p q, In (p, q) rs /\ p <= a < q /\ b <= q).
Proof.
  intros A a b B Ha. pose proof (built_WF _ B) as W.
  destruct (WF_split A a W ltac:(cps; lia)) as (p & x & s & E & F & Fp & X & Fs).
  unfold contains_range. rewrite F. cbn [bind]. rewrite land1_odd, getRanges_pairs.
  assert (U : forall u v, In (u, v) (pairs A) -> u <= a < v -> p = removelast p ++ [u] /\ x = v /\ Z.odd (zlen p) = true).
  { intros u v I H. destruct (pairs_split _ _ _ I) as (p1 & s1 & E1 & O1). rewrite E in E1.
    change (p1 ++ u :: v :: s1) with (p1 ++ [u] ++ v :: s1) in E1. rewrite app_assoc in E1.
    destruct W as (So & _). rewrite E, E1 in So. apply sorted_app_inv in So as (So & _). apply sorted_app_inv in So as (_ & _ & C).
    destruct (first_above a _ _ _ _ _ _ E1 Fp X) as (-> & -> & ->); [|lia|].
    - apply Forall_app. split; [|repeat constructor; lia]. apply Forall_forall. intros y Hy. specialize (C y u Hy (or_introl eq_refl)). lia.
    - rewrite removelast_last. split; [reflexivity|]. split; [reflexivity|]. rewrite zlen_app. change (zlen [u]) with 1. rewrite odd_S, O1. reflexivity. }
  destruct (Z.odd (zlen p)) eqn:O.
  - assert (G : py_get A (zlen p) = Ok x) by (rewrite E; apply py_get_mid). rewrite G. cbn [bind]. eexists _, _. split; [reflexivity|]. split; [reflexivity|]. split.
    + intros H. destruct p as [|w p0] using rev_ind; [discriminate|]. clear IHp0. exists w, x. rewrite zlen_app in O. change (zlen [w]) with 1 in O. rewrite odd_S in O.
      split; [|split; [|lia]].
      * rewrite E, <- app_assoc. apply pairs_there. destruct (Z.odd (zlen p0)); [discriminate|reflexivity].
      * apply Forall_app in Fp as [_ Fp]. inversion Fp; subst. lia.
    + intros (u & v & I & H1 & H2). destruct (U u v I H1) as (_ & -> & _). lia.
  - exists false. eexists. split; [reflexivity|]. split; [reflexivity|]. split; [discriminate|]. intros (u & v & I & H1 & H2).
    destruct (U u v I H1) as (_ & _ & K). discriminate.
Qed.
Print Assumptions C15_exact.
(** so True is always right *)
Theorem C15_true_is_right : forall A a b c, built A -> is_cp a -> contains_range A a b = Ok true -> a <= c < b -> contains A c = Ok true.
Proof.
  intros A a b c B Ha E Hc. destruct (C15_exact A a b B Ha) as (r & rs & E1 & R & T). rewrite E in E1. injection E1 as <-. destruct (proj1 T eq_refl) as (p & q & I & H1 & H2).
  destruct (ranges_ok A B) as (rs1 & R1 & _ & _ & M & _). rewrite R in R1. injection R1 as <-.
  rewrite getRanges_pairs in R. injection R as R. rewrite <- R in I. destruct (pairs_split _ _ _ I) as (p1 & s1 & Q & _).
  pose proof (built_WF _ B) as (_ & Bd & _). rewrite Q in Bd. apply Forall_app in Bd as [_ Bd]. inversion Bd as [|? ? _ Bd1]; subst. inversion Bd1; subst.
  apply M; [cps; lia|]. exists p, q. split; [exact I|lia].
Qed.
Print Assumptions C15_true_is_right.
Example C15_exact_case : getRanges [1; 5; 5; 7; 0x110000] = Ok [(1, 5); (5, 7)] /\ contains_range [1; 5; 5; 7; 0x110000] 1 5 = Ok true /\
  contains_range [1; 5; 5; 7; 0x110000] 1 6 = Ok false /\ contains_range [1; 5; 5; 7; 0x110000] 5 7 = Ok true /\
  contains_range [1; 5; 5; 7; 0x110000] 3 (-9) = Ok true.
Proof. vm_compute. auto 6. Qed.

(** ** C18: addRange returns None exactly if at least two code points are given, all listed ranges end at or before the first one,
    and 0x110000 is not said to be contained *)
Lemma pairs_end : forall p w, Z.odd (zlen p) = true -> exists u, In (u, w) (pairs (p ++ [w])).
Proof.
  intros p w O. destruct p as [|u p] using rev_ind; [discriminate|]. clear IHp. rewrite zlen_app in O. change (zlen [u]) with 1 in O. rewrite odd_S in O.
  exists u. rewrite <- app_assoc. apply pairs_there. destruct (Z.odd (zlen p)); [discriminate|reflexivity].
Qed.
Theorem C18_exact : forall A a b r v, built A -> is_cp a -> is_cp b -> addRange A a b = Ok (r, v) ->
  (v = RNone <-> a < b /\ contains A 0x110000 = Ok false /\ forall p q, getRanges A = Ok p -> In q p -> snd q <= a).
Proof.
  intros A a b r v B Ha Hb E. pose proof (built_WF _ B) as W. rewrite contains_above by (unfold HIGH; auto; lia). rewrite getRanges_pairs.
  unfold addRange in E. rewrite range_noop in E by auto.
  destruct (a <? b) eqn:Eab.
  2: { split; [|lia]. intros ->. destruct (a =? b); [destruct (add A a); discriminate|discriminate]. }
  rewrite land1_odd in E. destruct (Z.odd (zlen A)) eqn:O; cbn [negb] in E.
  2: { split; [|intros (_ & K & _); discriminate]. intros ->. destruct (addList A [a; b + 1; HIGH] 0); discriminate. }
  destruct W as (So & Bd & N & La). destruct (exists_last N) as (p & z & ->). rewrite last_last in La. subst z.
  rewrite zlen_app in O. change (zlen [HIGH]) with 1 in O. rewrite odd_S in O. assert (OP : Z.odd (zlen p) = false) by (destruct (Z.odd (zlen p)); [discriminate|reflexivity]).
  rewrite pairs_snoc by auto. destruct p as [|w p0] using rev_ind.
  - change (zlen ([] ++ [HIGH]) =? 1) with true in E. cbn [bind] in E. destruct (-2 <=? a) eqn:E2; [|cps; lia].
    assert (v = RNone) as ->.
    { destruct (-2 =? a); [|cbn in E; congruence]. destruct (py_set _ _ _) in E; cbn in E; congruence. }
    split; [|auto]. intros _. split; [lia|]. split; [reflexivity|]. intros q u [= <-] [].
  - clear IHp0. rewrite <- app_assoc in E. simpl app in E.
    destruct (zlen (p0 ++ [w; HIGH]) =? 1) eqn:E1; [rewrite zlen_app in E1; unfold zlen in E1; simpl in E1; lia|].
    assert (G : py_get (p0 ++ [w; HIGH]) (-2) = Ok w).
    { unfold py_get. change (-2 <? 0) with true. cbv iota zeta. rewrite zlen_app. change (zlen [w; HIGH]) with 2.
      replace (-2 + (zlen p0 + 2)) with (zlen p0) by lia.
      destruct (zlen p0 <? 0) eqn:T2; [unfold zlen in T2; lia|].
      rewrite nth_error_app2 by (unfold zlen; lia).
      replace (Z.to_nat (zlen p0) - List.length p0)%nat with 0%nat by (unfold zlen; lia). reflexivity. }
    rewrite G in E. cbn [bind] in E.
    assert (OP0 : Z.odd (zlen p0) = true) by (rewrite zlen_app in OP; change (zlen [w]) with 1 in OP; rewrite odd_S in OP; destruct (Z.odd (zlen p0)); [reflexivity|discriminate]).
    destruct (w <=? a) eqn:Ew.
    + assert (v = RNone) as ->.
      { destruct (w =? a); destruct (py_set _ _ _) in E; cbn in E; try discriminate; congruence. }
      split; [|auto]. intros _. split; [lia|]. split; [reflexivity|]. intros q u [= <-] I. destruct u as [u1 u2]. cbn.
      apply pairs_split in I as (p1 & s1 & Q & _). apply sorted_app_inv in So as (So & _).
      assert (In u2 (p0 ++ [w])) as I2 by (rewrite Q; apply in_or_app; right; right; left; reflexivity).
      apply sorted_app_inv in So as (_ & _ & C). apply in_app_or in I2 as [I2|[->|[]]]; [specialize (C u2 w I2 (or_introl eq_refl)); lia|lia].
    + split; [intros ->; destruct (addList _ _ _) in E; discriminate|]. intros (_ & _ & K). exfalso.
      destruct (pairs_end p0 w OP0) as (u & I). specialize (K _ _ eq_refl I). cbn in K. lia.
Qed.
Print Assumptions C18_exact.
Example C18_exact_case : addRange [65; 91; 0x110000] 97 122 = Ok ([65; 91; 97; 123; 0x110000], RNone) /\
  (exists r, addRange [65; 91; 0x110000] 70 122 = Ok (r, RSelf)) /\ (exists r, addRange [65; 91; 0x10FFFF; 0x110000] 97 122 = Ok (r, RSelf)).
Proof. split; [vm_compute; reflexivity|]. split; eexists; vm_compute; reflexivity. Qed.
