(** * Proofs of the UnicodeSet properties (stated in Prop_UnicodeSet.v). *)
From Coq Require Import ZArith List Bool Lia Sorted ZifyBool.
From Verif Require Import Py UnicodeSet UnicodeSetFacts UnicodeSetMerge UnicodeSetUnion UnicodeSetOps UnicodeSetViews SpecSet UnicodeSetHeap UnicodeSetReach.
Import ListNotations.
Open Scope Z_scope.

Definition binop_ok (f : uset -> uset -> res uset) (g : cpset -> cpset -> cpset) : Prop :=
  forall A B s t, built A -> built B -> is_set A s -> is_set B t ->
  exists r, f A B = Ok r /\ built r /\ is_set r (g s t).

Lemma binop f g : correct2 f g -> (forall A B r, built A -> built B -> f A B = Ok r -> built r) -> binop_ok f g.
Proof.
  intros C Bu A B s t BA BB IA IB.
  destruct (C A B s t) as (r & E & D); auto using is_set_denotes.
  exists r. repeat split; eauto using denotes_is_set.
Qed.

Lemma union_ok : binop_ok addAll s_union /\ binop_ok union s_union.
Proof. split; (apply binop; [exact addAll_correct|]); intros A B r BA BB E; exact (b_addAll A B r BA BB E). Qed.
Lemma intersection_ok : binop_ok retainAll s_inter /\ binop_ok intersection s_inter.
Proof. split; (apply binop; [exact retainAll_correct|]); intros A B r BA BB E; exact (b_retainAll A B r BA BB E). Qed.
Lemma difference_ok : binop_ok removeAll s_diff /\ binop_ok difference s_diff.
Proof. split; (apply binop; [exact removeAll_correct|]); intros A B r BA BB E; exact (b_removeAll A B r BA BB E). Qed.
Lemma symdiff_ok : binop_ok complementAll s_xor /\ binop_ok symmetric_difference s_xor.
Proof. split; (apply binop; [exact complementAll_correct|]); intros A B r BA BB E; exact (b_complementAll A B r BA BB E). Qed.

Lemma complement_ok A s : built A -> is_set A s ->
  exists r, complement A = Ok r /\ built r /\ is_set r (s_compl s) /\
  exists r2, complement r = Ok r2 /\ is_set r2 s.
Proof.
  intros BA IA. pose proof (is_set_denotes _ _ BA IA) as [W P].
  destruct (complement_spec A W) as (r & E & Wr & _ & Pr).
  destruct (complement_spec r Wr) as (r2 & E2 & Wr2 & _ & Pr2).
  exists r. split; auto. split; [eapply b_complement; eauto|]. split.
  - apply denotes_is_set. split; auto. intros c Hc. rewrite Pr, P by lia. reflexivity.
  - exists r2. split; auto. apply denotes_is_set. split; auto. intros c Hc.
    rewrite Pr2, Pr, P by lia. apply negb_involutive.
Qed.

Lemma add_present A x : contains A x = Ok true -> is_cp x -> add A x = Ok A.
Proof.
  intros H Hx. unfold contains, add in *. rewrite pin_id by (cps; lia).
  destruct (findCodePoint A x) as [i|]; [|discriminate]. cbn [bind] in *.
  injection H as ->. reflexivity.
Qed.

Lemma add_ok A s x : built A -> is_set A s -> is_cp x ->
  exists r, add A x = Ok r /\ built r /\ is_set r (s_union s (s_single x)) /\
            (contains A x = Ok true -> r = A).
Proof.
  intros BA IA Hx. pose proof (is_set_denotes _ _ BA IA) as [W P].
  destruct (add_spec A x W ltac:(cps; lia)) as (r & E & Wr & Pr).
  exists r. split; auto. split; [eapply b_add; eauto|]. split.
  - apply denotes_is_set. split; auto. intros c Hc. rewrite Pr, P by lia. reflexivity.
  - intros H. apply add_present in H; auto. congruence.
Qed.

Lemma addRange_ok A s a b : built A -> is_set A s -> is_cp a -> is_cp b -> a <= b ->
  exists r v, addRange A a b = Ok (r, v) /\ built r /\ is_set r (s_union s (s_span a b)).
Proof.
  intros BA IA Ha Hb Hab. pose proof (is_set_denotes _ _ BA IA) as [W P].
  destruct (addRange_spec A a b W ltac:(cps; lia)) as (r & v & E & Wr & _ & Pr).
  exists r, v. split; auto. split; [eapply (b_addRange A a b); eauto|].
  apply denotes_is_set. split; auto. intros c Hc. rewrite Pr, P by lia. reflexivity.
Qed.

Definition rangeop_ok (f : uset -> Z -> Z -> res uset) (g : cpset -> cpset -> cpset) : Prop :=
  forall A s a b, built A -> is_set A s -> is_cp a -> is_cp b ->
  (a < b -> exists r, f A a b = Ok r /\ built r /\ is_set r (g s (s_span a b))) /\
  (b < a -> f A a b = Ok A).

Lemma removeRange_ok : rangeop_ok removeRange s_diff.
Proof.
  intros A s a b BA IA Ha Hb. pose proof (is_set_denotes _ _ BA IA) as [W P]. split; intros Hab.
  - destruct (removeRange_spec A a b W ltac:(cps; lia) Hab) as (r & E & Wr & _ & Pr).
    exists r. split; auto. split; [eapply (b_removeRange A a b); eauto|].
    apply denotes_is_set. split; auto. intros c Hc. rewrite Pr, P by lia. reflexivity.
  - unfold removeRange. rewrite range_noop by auto. destruct (a <? b) eqn:E; [lia|reflexivity].
Qed.
Lemma retainRange_ok : rangeop_ok retainRange s_inter.
Proof.
  intros A s a b BA IA Ha Hb. pose proof (is_set_denotes _ _ BA IA) as [W P]. split; intros Hab.
  - destruct (retainRange_spec A a b W ltac:(cps; lia) Hab) as (r & E & Wr & _ & Pr).
    exists r. split; auto. split; [eapply (b_retainRange A a b); eauto|].
    apply denotes_is_set. split; auto. intros c Hc. rewrite Pr, P by lia. reflexivity.
  - unfold retainRange. rewrite range_noop by auto. destruct (a <? b) eqn:E; [lia|reflexivity].
Qed.
Lemma complementRange_ok : rangeop_ok complementRange s_xor.
Proof.
  intros A s a b BA IA Ha Hb. pose proof (is_set_denotes _ _ BA IA) as [W P]. split; intros Hab.
  - destruct (complementRange_spec A a b W ltac:(cps; lia) Hab) as (r & E & Wr & _ & Pr).
    exists r. split; auto. split; [eapply (b_complementRange A a b); eauto|].
    apply denotes_is_set. split; auto. intros c Hc. rewrite Pr, P by lia. reflexivity.
  - unfold complementRange. rewrite range_noop by auto. destruct (a <? b) eqn:E; [lia|reflexivity].
Qed.

Lemma single_noop A x : remove A x = Ok A /\ retain A x = Ok A /\ complement_int A x = Ok A.
Proof.
  unfold remove, retain, complement_int, removeRange, retainRange, complementRange.
  rewrite Z.ltb_irrefl. auto.
Qed.

(** ** Histories *)

Lemma histories_ok ks : legal_run 0 ks ->
  exists h, run_calls empty_heap ks = Ok (h, snd (spec_run [] ks)).
Proof. intros L. destruct (run_sim ks empty_heap [] R_empty L) as (h & E & _). eauto. Qed.

(** ** Views *)

Lemma eq_clean A B : clean A -> clean B ->
  (UnicodeSet.eq A B = true <-> forall c, is_cp c -> contains A c = contains B c).
Proof.
  intros HA HB. rewrite (canon_eq A B) by auto using clean_Canon.
  split; intros H c Hc; apply H; cps; lia.
Qed.

Lemma eq_sound A B : UnicodeSet.eq A B = true -> A = B.
Proof. apply list_eqb_eq. Qed.

Lemma eq_observes A B : UnicodeSet.eq A B = true -> forall c, contains A c = contains B c.
Proof. intros H. apply list_eqb_eq in H. subst; auto. Qed.

Lemma iter_ok A : built A ->
  exists es, iter A = Ok es /\ StronglySorted Z.lt es /\ size A = Ok (Z.of_nat (length es)) /\
    forall c, In c es <-> is_cp c /\ contains A c = Ok true.
Proof.
  intros BA. pose proof (built_WF _ BA) as W. pose proof W as (So & _).
  exists (elements A). split; [apply iter_elements|]. split; [apply elements_strict; auto|].
  split; [apply size_spec; auto|].
  intros c. rewrite (elements_contains A c W). cps. intuition lia.
Qed.

Lemma charAt_ok A es i : built A -> iter A = Ok es ->
  charAt A i = Ok (if i <? 0 then None else nth_error es (Z.to_nat i)).
Proof.
  intros BA E. rewrite iter_elements in E. injection E as <-. apply charAt_spec. apply (built_WF _ BA).
Qed.

Lemma indexOf_ok A es c : built A -> iter A = Ok es ->
  exists r, indexOf A c = Ok r /\
  forall k, r = Some k <-> 0 <= k /\ nth_error es (Z.to_nat k) = Some c.
Proof.
  intros BA E. rewrite iter_elements in E. injection E as <-.
  pose proof (built_WF _ BA) as W. destruct (indexOf_spec A c W) as (r & E & H).
  exists r. split; auto. intros k. destruct r as [j|].
  - destruct H as [H0 H1]. split; [intros [= <-]; auto|]. intros [K0 K1]. f_equal.
    assert (ND : NoDup (elements A)).
    { pose proof (elements_strict A (proj1 W)) as S. clear -S.
      induction S; constructor; auto. intros I. rewrite Forall_forall in H. specialize (H _ I). lia. }
    rewrite NoDup_nth_error in ND. apply Z2Nat.inj; auto. apply ND; [|congruence].
    apply nth_error_Some. congruence.
  - split; [discriminate|]. intros [K0 K1]. exfalso. apply H. eapply nth_error_In; eauto.
Qed.

Lemma inverse_ok A i c k : built A ->
  (charAt A i = Ok (Some c) -> indexOf A c = Ok (Some i)) /\
  (indexOf A c = Ok (Some k) -> charAt A k = Ok (Some c)).
Proof.
  intros BA. destruct (iter_ok A BA) as (es & Ei & _).
  destruct (indexOf_ok A es c BA Ei) as (r & Er & Hr). split; intros H.
  - rewrite (charAt_ok A es i BA Ei) in H. destruct (i <? 0) eqn:E; [discriminate|]. injection H as H.
    assert (r = Some i) by (apply Hr; split; [lia|auto]). congruence.
  - assert (r = Some k) as K by congruence. apply Hr in K as [K0 K1].
    rewrite (charAt_ok A es k BA Ei). destruct (k <? 0) eqn:E; [lia|congruence].
Qed.

(** ascending and not overlapping *)
Fixpoint ascending (lo : Z) (rs : list (Z * Z)) : Prop :=
  match rs with
  | [] => True
  | (a, b) :: r => lo <= a /\ a <= b /\ ascending b r
  end.

Lemma pairs_ascending : forall l lo, sorted l -> Forall (fun x => lo <= x) l -> ascending lo (pairs l).
Proof.
  induction l as [|x|x y l IH] using list_ind2; intros lo S F; simpl; auto.
  inversion S as [|? ? S1 F1]; inversion S1 as [|? ? S2 F2]; inversion F as [|? ? L1 L2]; inversion F1; subst.
  repeat split; auto.
Qed.

Lemma inr_pairs l c : inr l c = true <-> exists a b, In (a, b) (pairs l) /\ a <= c < b.
Proof.
  induction l as [|x|x y l IH] using list_ind2; [simpl; split; [discriminate|intros (?&?&[]&_)]..|].
  cbn [inr pairs]. rewrite orb_true_iff, IH. split.
  - intros [H|(a & b & I & H)]; [exists x, y|exists a, b]; simpl; split; auto; lia.
  - intros (a & b & [Q|I] & H0); [injection Q as <- <-; left; lia|right; eauto].
Qed.

Lemma pairs_nth : forall l j, (j < length l / 2)%nat ->
  exists a b, nth_error (pairs l) j = Some (a, b) /\ nth_error l (2 * j) = Some a /\ nth_error l (2 * j + 1) = Some b.
Proof.
  induction l as [|x|x y l IH] using list_ind2; intros j Hj; [simpl in Hj; lia..|].
  rewrite half_cons2 in Hj. destruct j as [|j]; [exists x, y; auto|].
  destruct (IH j ltac:(lia)) as (a & b & H1 & H2 & H3). exists a, b.
  replace (2 * S j)%nat with (S (S (2 * j))) by lia. simpl Nat.add. auto.
Qed.

Lemma pairs_length l : length (pairs l) = (length l / 2)%nat.
Proof. induction l as [|x|x y l IH] using list_ind2; auto. rewrite half_cons2. cbn [pairs length]. rewrite IH. reflexivity. Qed.

Lemma ranges_ok A : built A ->
  exists rs, getRanges A = Ok rs /\ getRangeCount A = Z.of_nat (length rs) /\ ascending 0 rs /\
    (forall c, is_cp c -> (contains A c = Ok true <-> exists a b, In (a, b) rs /\ a <= c < b)) /\
    (forall i, 0 <= i < getRangeCount A -> exists a b, nth_error rs (Z.to_nat i) = Some (a, b) /\
        getRangeStart A i = Ok a /\ getRangeEnd A i = Ok (b - 1)).
Proof.
  intros BA. pose proof (built_WF _ BA) as W. pose proof W as (So & Bd & _).
  assert (EC : getRangeCount A = Z.of_nat (length (pairs A))).
  { unfold getRangeCount, zlen. rewrite pairs_length. rewrite Nat2Z.inj_div. reflexivity. }
  exists (pairs A). split; [apply getRanges_pairs|]. split; auto. split.
  { apply pairs_ascending; auto. eapply Forall_impl; [|exact Bd]; simpl; intros; lia. }
  split.
  - intros c Hc. rewrite <- inr_pairs. pose proof (elements_contains A c W) as H.
    rewrite inr_elements in H. cps. split; intros K; [apply H; split; [lia|exact K]|apply H in K; apply K].
  - intros i Hi. rewrite EC in Hi.
    destruct (pairs_nth A (Z.to_nat i)) as (a & b & H1 & H2 & H3); [rewrite <- pairs_length; lia|].
    exists a, b. split; auto. unfold getRangeStart, getRangeEnd. split.
    + rewrite py_get_nonneg by lia. replace (Z.to_nat (i * 2)) with (2 * Z.to_nat i)%nat by lia. rewrite H2. reflexivity.
    + rewrite py_get_nonneg by lia. replace (Z.to_nat (i * 2 + 1)) with (2 * Z.to_nat i + 1)%nat by lia. rewrite H3. reflexivity.
Qed.

Lemma contains_range_ok A a b : clean A -> is_cp a -> a < b -> b <= 0x110000 ->
  exists r, contains_range A a b = Ok r /\
    (r = true <-> forall c, a <= c < b -> contains A c = Ok true).
Proof. intros C Ha Hab Hb. apply contains_range_spec; auto using clean_Canon; cps; lia. Qed.

(** ** contains on every integer *)

Lemma contains_negative A x : built A -> x < 0 -> contains A x = Ok false.
Proof.
  intros BA Hx. pose proof (built_WF _ BA) as (So & Bd & N & _).
  destruct A as [|y l]; [congruence|]. unfold contains, findCodePoint. cbn [py_get bind zlen].
  rewrite py_get_cons_0. cbn [bind]. inversion Bd; subst.
  destruct (x <? y) eqn:E; [reflexivity|lia].
Qed.

Lemma contains_large A x : built A -> x >= 0x110000 -> exists r, contains A x = Ok r.
Proof.
  intros BA Hx. pose proof (built_WF _ BA) as (So & Bd & N & L).
  destruct A as [|y l]; [congruence|]. unfold contains, findCodePoint.
  rewrite py_get_cons_0. cbn [bind]. inversion Bd; subst.
  destruct (x <? y) eqn:E; [unfold HIGH in *; lia|].
  destruct (0 >=? zlen (y :: l) - 1) eqn:E2; [cbn [bind]; eauto|].
  destruct (py_get (y :: l) (zlen (y :: l) - 1 - 1)) as [z|e] eqn:G.
  - cbn [bind]. assert (In z (y :: l)).
    { rewrite py_get_nonneg in G by lia. destruct (nth_error (y :: l) _) eqn:Z; [|discriminate].
      injection G as <-. eapply nth_error_In; eauto. }
    rewrite Forall_forall in Bd. apply Bd in H. destruct (x >=? z) eqn:E3; [cbn [bind]; eauto|].
    unfold HIGH in *; lia.
  - rewrite py_get_nonneg in G by lia.
    destruct (nth_error (y :: l) (Z.to_nat (zlen (y :: l) - 1 - 1))) eqn:Z; [discriminate|].
    apply nth_error_None in Z. unfold zlen in *. lia.
Qed.

Lemma contains_total A x : built A ->
  (exists r, contains A x = Ok r) /\ (x < 0 -> contains A x = Ok false).
Proof.
  intros BA. split; [|apply contains_negative; auto].
  destruct (Z_lt_le_dec x 0); [exists false; apply contains_negative; auto|].
  destruct (Z_lt_le_dec x 0x110000); [|apply contains_large; auto; lia].
  destruct (built_is_set A BA) as (s & I). exists (s x). apply I. cps; lia.
Qed.

(** ** Boolean algebra *)

(** Set expressions over the operators and complement() *)
Inductive sexpr : Type :=
| EVar (n : nat)
| EUnion (e f : sexpr)
| EInter (e f : sexpr)
| EDiff (e f : sexpr)
| EXor (e f : sexpr)
| ECompl (e : sexpr).

(** evaluation with the API ([UnicodeSet(e).complement()] for the complement) *)
Fixpoint eval (env : nat -> uset) (e : sexpr) : res uset :=
  match e with
  | EVar n => Ok (env n)
  | EUnion e f => let* x := eval env e in let* y := eval env f in union x y
  | EInter e f => let* x := eval env e in let* y := eval env f in intersection x y
  | EDiff e f => let* x := eval env e in let* y := eval env f in difference x y
  | EXor e f => let* x := eval env e in let* y := eval env f in symmetric_difference x y
  | ECompl e => let* x := eval env e in complement (new_copy x)
  end.

(** the Boolean formula an expression stands for *)
Fixpoint beval (v : nat -> bool) (e : sexpr) : bool :=
  match e with
  | EVar n => v n
  | EUnion e f => beval v e || beval v f
  | EInter e f => beval v e && beval v f
  | EDiff e f => beval v e && negb (beval v f)
  | EXor e f => xorb (beval v e) (beval v f)
  | ECompl e => negb (beval v e)
  end.

Lemma eval_ok env sem : (forall n, built (env n)) -> (forall n, is_set (env n) (sem n)) ->
  forall e, exists r, eval env e = Ok r /\ built r /\ is_set r (fun c => beval (fun n => sem n c) e).
Proof.
  intros BE SE. induction e; simpl.
  - eauto.
  - destruct IHe1 as (x & -> & Bx & Ix), IHe2 as (y & -> & By & Iy). cbn [bind].
    exact (proj2 union_ok x y _ _ Bx By Ix Iy).
  - destruct IHe1 as (x & -> & Bx & Ix), IHe2 as (y & -> & By & Iy). cbn [bind].
    exact (proj2 intersection_ok x y _ _ Bx By Ix Iy).
  - destruct IHe1 as (x & -> & Bx & Ix), IHe2 as (y & -> & By & Iy). cbn [bind].
    exact (proj2 difference_ok x y _ _ Bx By Ix Iy).
  - destruct IHe1 as (x & -> & Bx & Ix), IHe2 as (y & -> & By & Iy). cbn [bind].
    exact (proj2 symdiff_ok x y _ _ Bx By Ix Iy).
  - destruct IHe as (x & -> & Bx & Ix). cbn [bind].
    destruct (complement_ok x _ Bx Ix) as (r & E & Br & Ir & _). exists r. auto.
Qed.

Lemma laws_ok env e f : (forall n, built (env n)) -> (forall v, beval v e = beval v f) ->
  exists x y, eval env e = Ok x /\ eval env f = Ok y /\ forall c, is_cp c -> contains x c = contains y c.
Proof.
  intros BE H.
  assert (SE : forall n, is_set (env n) (par (env n))).
  { intros n. apply denotes_is_set. split; auto using built_WF. }
  destruct (eval_ok env (fun n => par (env n)) BE SE e) as (x & Ex & _ & Ix).
  destruct (eval_ok env (fun n => par (env n)) BE SE f) as (y & Ey & _ & Iy).
  exists x, y. repeat split; auto. intros c Hc. rewrite Ix, Iy by auto. f_equal. apply H.
Qed.

(** ** addRange's returned value *)

Lemma addRange_self A a b c r v : built A -> is_cp a -> is_cp b -> addRange A a b = Ok (r, v) ->
  is_cp c -> a <= c -> contains A c = Ok true -> v = RSelf.
Proof.
  intros BA Ha Hb E Hc Hac Hin. pose proof (built_WF _ BA) as W.
  destruct v; auto. exfalso.
  unfold addRange in E. rewrite range_noop in E by auto.
  destruct (a <? b) eqn:Eab; [|destruct (a =? b); [destruct (add A a); discriminate|discriminate]].
  rewrite land1_odd in E.
  destruct (Z.odd (zlen A)) eqn:O; cbn [negb] in E;
    [|destruct (addList A [a; b + 1; HIGH] 0); discriminate].
  rewrite contains_par in Hin by (auto; cps; lia). injection Hin as Hin.
  pose proof W as (So & Bd & N & La).
  destruct (exists_last N) as (p & z & ->). rewrite last_last in La. subst z.
  destruct p as [|w p0] using rev_ind.
  - simpl in Hin. destruct (HIGH <=? c) eqn:E2; [cps; lia|discriminate].
  - clear IHp0. rewrite <- app_assoc in *. simpl app in *.
    destruct (zlen (p0 ++ [w; HIGH]) =? 1) eqn:E1; [rewrite zlen_app in E1; unfold zlen in E1; simpl in E1; lia|].
    assert (G : py_get (p0 ++ [w; HIGH]) (-2) = Ok w).
    { unfold py_get. change (-2 <? 0) with true. cbv iota zeta. rewrite zlen_app. change (zlen [w; HIGH]) with 2.
      replace (-2 + (zlen p0 + 2)) with (zlen p0) by lia.
      destruct (zlen p0 <? 0) eqn:T2; [unfold zlen in T2; lia|].
      rewrite nth_error_app2 by (unfold zlen; lia).
      replace (Z.to_nat (zlen p0) - length p0)%nat with 0%nat by (unfold zlen; lia). reflexivity. }
    rewrite G in E. cbn [bind] in E.
    destruct (w <=? a) eqn:Ew; [|destruct (addList _ _ _); discriminate].
    rewrite (par_app p0 [w; HIGH]) in Hin.
    assert (F : Forall (fun x => x <= c) p0).
    { apply Forall_forall. intros x Hx.
      pose proof (sorted_app_inv _ _ So) as K. destruct K as (_ & _ & K).
      specialize (K x w Hx ltac:(left; auto)). lia. }
    rewrite (par_le p0) in Hin by auto.
    cbn [par] in Hin. destruct (w <=? c) eqn:Ewc; [|lia].
    destruct (HIGH <=? c) eqn:Eh; [cps; lia|].
    rewrite zlen_app, Z.odd_add in O. change (Z.odd (zlen [w; HIGH])) with false in O.
    rewrite xorb_false_r in O. rewrite O in Hin. discriminate.
Qed.

(** ** The constructors *)

Lemma constructors_ok :
  is_set new_empty s_empty /\
  (forall x, is_cp x -> is_set (new_int x) (s_single x)) /\
  (forall a b, 0 <= a <= b -> b <= 0x110000 -> is_set (new_range a b) (s_span a (b - 1))) /\
  (forall l s, is_set l s -> is_set (new_copy l) s).
Proof.
  repeat split.
  - apply denotes_is_set. split; [apply WF_empty|]. intros c Hc. cbn [par new_empty].
    destruct (HIGH <=? c) eqn:E; [lia|reflexivity].
  - intros x Hx. destruct (new_int_spec x ltac:(cps; lia)) as [W P]. apply denotes_is_set. split; auto.
    intros; apply P; lia.
  - intros a b Ha Hb. destruct (new_range_spec a b Ha ltac:(cps; lia)) as [W P]. apply denotes_is_set. split; auto.
    intros c Hc. rewrite P by lia. unfold s_span. f_equal. lia.
  - auto.
Qed.
