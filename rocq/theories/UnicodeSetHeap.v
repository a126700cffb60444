(** * Heap model of UnicodeSet objects.

    [lmem] holds the list objects, [omem] gives for every UnicodeSet object the
    address of the list object its attribute [self.list] refers to.  The model
    follows UnicodeSet.py in which methods mutate the list object in place and
    which bind [self.list] to another list object, so that unwanted sharing would
    be visible. *)
From Coq Require Import ZArith List Bool Lia Sorted Permutation ZifyBool.
From Verif Require Import Py UnicodeSet UnicodeSetFacts UnicodeSetMerge UnicodeSetUnion UnicodeSetOps UnicodeSetViews SpecSet.
Import ListNotations.
Open Scope Z_scope.

Record heap := mkHeap { lmem : list (list Z); omem : list nat }.

Definition empty_heap : heap := mkHeap [] [].

(** [self.list] of object [o]: its address and contents.  A dangling object name
    cannot occur in Python; KeyError stands for it. *)
Definition look (h : heap) (o : nat) : res (nat * list Z) :=
  match nth_error (omem h) o with
  | None => Err KeyError
  | Some a => match nth_error (lmem h) a with
              | None => Err KeyError
              | Some l => Ok (a, l)
              end
  end.

(** mutation of the list object at address [a] *)
Definition inplace (h : heap) (a : nat) (l : list Z) : heap :=
  mkHeap (replace (lmem h) a l) (omem h).
(** [self.list = l] for a new list object *)
Definition rebind (h : heap) (o : nat) (l : list Z) : heap :=
  mkHeap (lmem h ++ [l]) (replace (omem h) o (length (lmem h))).
(** a new UnicodeSet object with a new list object *)
Definition alloc (h : heap) (l : list Z) : heap * outcome :=
  (mkHeap (lmem h ++ [l]) (omem h ++ [length (lmem h)]), Created (length (omem h))).

(** [self._xxxList(other.list)]: reads both lists, then [self.list = buffer]
    (UnicodeSet.py:211, 336, 390) *)
Definition merge_call (f : uset -> uset -> res uset) (h : heap) (o p : nat) : res (heap * outcome) :=
  let* (_, l) := look h o in
  let* (_, m) := look h p in
  let* r := f l m in
  Ok (rebind h o r, Done).

(** [self._xxxList([start, end + 1, HIGH])] or nothing *)
Definition range_call (f : uset -> Z -> Z -> res uset) (h : heap) (o : nat) (a b : Z) : res (heap * outcome) :=
  let* (_, l) := look h o in
  if pin a <? pin b then let* r := f l a b in Ok (rebind h o r, Done)
  else Ok (h, Done).

(** UnicodeSet.py:393-419 all edits of [add] are in place *)
Definition add_call (h : heap) (o : nat) (x : Z) : res (heap * outcome) :=
  let* (a, l) := look h o in
  let* r := add l x in
  Ok (inplace h a r, Done).

(** UnicodeSet.py:421-456: the fast path edits in place, the slow path goes
    through [_addList], a single code point through [add].  [RNone] marks the
    fast path (its [return]). *)
Definition addRange_call (h : heap) (o : nat) (x y : Z) : res (heap * outcome) :=
  let* (a, l) := look h o in
  let* (r, v) := addRange l x y in
  match v with
  | RNone => Ok (inplace h a r, Done)
  | RSelf => if pin x <? pin y then Ok (rebind h o r, Done) else Ok (inplace h a r, Done)
  end.

(** UnicodeSet.py:560-563: [self.list = self.list[1:]] or [self.list[0:0] = [0]] *)
Definition complement_call (h : heap) (o : nat) : res (heap * outcome) :=
  let* (a, l) := look h o in
  let* x := py_get l 0 in
  let* r := complement l in
  if x =? LOW then Ok (rebind h o r, Done) else Ok (inplace h a r, Done).

(** UnicodeSet.py:700-703 [UnicodeSet(other)]: [arg.list.copy()] *)
Definition copy_call (h : heap) (o : nat) : res (heap * outcome) :=
  let* (_, l) := look h o in Ok (alloc h (new_copy l)).

(** UnicodeSet.py:609-647: [result = UnicodeSet(self); return result.xxxAll(other)] *)
Definition operator_call (f : uset -> uset -> res uset) (h : heap) (o p : nat) : res (heap * outcome) :=
  let* (h1, out) := copy_call h o in
  let* (h2, _) := merge_call f h1 (length (omem h)) p in
  Ok (h2, out).

Definition do_call (h : heap) (k : call) : res (heap * outcome) :=
  match k with
  | New => Ok (alloc h new_empty)
  | NewInt x => Ok (alloc h (new_int x))
  | NewRange a b => Ok (alloc h (new_range a b))
  | NewCopy o => copy_call h o
  | Add o x => add_call h o x
  | AddRange o a b => addRange_call h o a b
  | AddAll o p => merge_call addAll h o p
  | RemoveRange o a b => range_call removeRange h o a b
  | RemoveAll o p => merge_call removeAll h o p
  | RetainRange o a b => range_call retainRange h o a b
  | RetainAll o p => merge_call retainAll h o p
  | ComplementRange o a b => range_call complementRange h o a b
  | Complement o => complement_call h o
  | ComplementAll o p => merge_call complementAll h o p
  | Clear o => let* (_, l) := look h o in Ok (rebind h o (clear l), Done)
  | Union o p => operator_call addAll h o p
  | Intersection o p => operator_call retainAll h o p
  | Difference o p => operator_call removeAll h o p
  | SymmetricDifference o p => operator_call complementAll h o p
  | Contains o c => let* (_, l) := look h o in let* b := contains l c in Ok (h, Answer b)
  end.

Fixpoint run_calls (h : heap) (ks : list call) : res (heap * list outcome) :=
  match ks with
  | [] => Ok (h, [])
  | k :: r => let* (h1, o) := do_call h k in
              let* (h2, os) := run_calls h1 r in Ok (h2, o :: os)
  end.

(** ** Simulation *)

Definition denotes (l : uset) (s : cpset) : Prop :=
  WF l /\ forall c, 0 <= c < HIGH -> par l c = s c.

Record R (h : heap) (st : store) : Prop := {
  R_len : length (omem h) = length st;
  R_nodup : NoDup (omem h);
  R_obj : forall o a, nth_error (omem h) o = Some a ->
          exists l s, nth_error (lmem h) a = Some l /\ nth_error st o = Some s /\ denotes l s }.

Lemma replace_length {A} (l : list A) i v : length (replace l i v) = length l.
Proof. revert i; induction l as [|x r IH]; intros [|i]; simpl; auto. Qed.

Lemma replace_same {A} (l : list A) i v : (i < length l)%nat -> nth_error (replace l i v) i = Some v.
Proof. revert i; induction l as [|x r IH]; intros [|i] H; simpl in *; auto; try lia. apply IH; lia. Qed.

Lemma replace_other {A} (l : list A) i j v : i <> j -> nth_error (replace l i v) j = nth_error l j.
Proof. revert i j; induction l as [|x r IH]; intros [|i] [|j] H; simpl; auto; try congruence. Qed.

Lemma NoDup_replace (l : list nat) i v : NoDup l -> ~ In v l -> NoDup (replace l i v).
Proof.
  revert i; induction l as [|x r IH]; intros [|i] H N; simpl; auto; inversion H; subst; simpl in N.
  - constructor; auto.
  - constructor; [|apply IH; auto].
    intros Hx. clear IH. assert (x = v \/ In x r) as [->|]; auto.
    { clear - Hx. revert i Hx; induction r as [|y r IH]; intros [|i] Hx; simpl in *; auto.
      - destruct Hx; auto.
      - destruct Hx as [|Hx]; auto. destruct (IH i Hx); auto. }
Qed.

Lemma nth_error_lt {A} (l : list A) i x : nth_error l i = Some x -> (i < length l)%nat.
Proof. intros H. apply nth_error_Some. congruence. Qed.

Lemma sget_nth st o s : nth_error st o = Some s -> sget st o = s.
Proof. unfold sget. intros H. apply nth_error_nth; auto. Qed.

Lemma R_look h st o : R h st -> (o < length st)%nat ->
  exists a l, nth_error (omem h) o = Some a /\ look h o = Ok (a, l) /\
              nth_error (lmem h) a = Some l /\ denotes l (sget st o).
Proof.
  intros HR Ho. destruct (nth_error (omem h) o) as [a|] eqn:E.
  - destruct (R_obj _ _ HR o a E) as (l & s & El & Es & D).
    exists a, l. unfold look. rewrite E, El. repeat split; auto; try apply D.
    rewrite (sget_nth _ _ _ Es). apply D.
  - apply nth_error_None in E. rewrite (R_len _ _ HR) in E. lia.
Qed.

Lemma R_bound h st a : R h st -> In a (omem h) -> (a < length (lmem h))%nat.
Proof.
  intros HR Ha. apply In_nth_error in Ha as (o & Ho).
  destruct (R_obj _ _ HR o a Ho) as (l & s & El & _). eapply nth_error_lt; eauto.
Qed.

Lemma R_fresh h st : R h st -> ~ In (length (lmem h)) (omem h).
Proof. intros HR H. apply (R_bound _ _ _ HR) in H. lia. Qed.

Lemma R_inplace h st o a l s : R h st -> nth_error (omem h) o = Some a -> denotes l s ->
  R (inplace h a l) (replace st o s).
Proof.
  intros HR Ho D. pose proof (R_bound _ _ a HR ltac:(eapply nth_error_In; eauto)) as Ha.
  split; simpl.
  - rewrite replace_length. apply HR.
  - apply HR.
  - intros o' a' Ho'. destruct (Nat.eq_dec o o') as [<-|N].
    + assert (a' = a) by congruence. subst a'. exists l, s.
      rewrite !replace_same; auto. rewrite <- (R_len _ _ HR). eapply nth_error_lt; eauto.
    + assert (a <> a').
      { intros <-. apply N. pose proof (R_nodup _ _ HR) as ND. rewrite NoDup_nth_error in ND.
        apply ND; [eapply nth_error_lt; eauto|congruence]. }
      rewrite !replace_other by auto. apply HR; auto.
Qed.

Lemma nth_error_snoc_old {A} (l : list A) x i y : nth_error l i = Some y -> nth_error (l ++ [x]) i = Some y.
Proof. intros H. rewrite nth_error_app1; auto. eapply nth_error_lt; eauto. Qed.

Lemma R_rebind h st o l s : R h st -> (o < length st)%nat -> denotes l s ->
  R (rebind h o l) (replace st o s).
Proof.
  intros HR Ho D. split; simpl.
  - rewrite !replace_length. apply HR.
  - apply NoDup_replace; [apply HR|eapply R_fresh; eauto].
  - intros o' a' Ho'. destruct (Nat.eq_dec o o') as [<-|N].
    + rewrite replace_same in Ho' by (rewrite (R_len _ _ HR); auto). injection Ho' as <-.
      exists l, s. rewrite replace_same by auto. rewrite nth_error_app2, Nat.sub_diag by lia. auto.
    + rewrite replace_other in Ho' by auto. destruct (R_obj _ _ HR _ _ Ho') as (l' & s' & El & Es & D').
      exists l', s'. rewrite replace_other by auto. split; [apply nth_error_snoc_old; auto|auto].
Qed.

Lemma R_alloc h st l s : R h st -> denotes l s -> R (fst (alloc h l)) (st ++ [s]).
Proof.
  intros HR D. split; simpl.
  - rewrite !app_length, (R_len _ _ HR). reflexivity.
  -
    assert (NoDup (length (lmem h) :: omem h)) as ND by (constructor; [eapply R_fresh; eauto|apply HR]).
    eapply Permutation_NoDup; [|exact ND].
    apply Permutation_cons_append.
  - intros o a Ho. destruct (Nat.lt_ge_cases o (length (omem h))) as [Hl|Hg].
    + rewrite nth_error_app1 in Ho by auto. destruct (R_obj _ _ HR _ _ Ho) as (l' & s' & El & Es & D').
      exists l', s'. split; [apply nth_error_snoc_old; auto|]. split; [apply nth_error_snoc_old; auto|auto].
    + assert (o = length (omem h)).
      { pose proof (nth_error_lt _ _ _ Ho) as L. rewrite app_length in L. simpl in L. lia. }
      subst o. rewrite nth_error_app2, Nat.sub_diag in Ho by lia. injection Ho as <-.
      exists l, s. rewrite nth_error_app2, Nat.sub_diag by lia.
      rewrite (R_len _ _ HR), nth_error_app2, Nat.sub_diag by lia. auto.
Qed.

(** the merge operations on denotations *)
Definition correct2 (f : uset -> uset -> res uset) (g : cpset -> cpset -> cpset) : Prop :=
  forall l m s t, denotes l s -> denotes m t -> exists r, f l m = Ok r /\ denotes r (g s t).

Lemma addAll_correct : correct2 addAll s_union.
Proof.
  intros l m s t [Wl Pl] [Wm Pm]. destruct (addList_spec l m Wl Wm) as (r & Er & Wr & Pr).
  exists r. split; auto. split; auto. intros c Hc. rewrite Pr, Pl, Pm by lia. reflexivity.
Qed.
Lemma retainAll_correct : correct2 retainAll s_inter.
Proof.
  intros l m s t [Wl Pl] [Wm Pm]. destruct (retainList_spec l m false Wl Wm) as (r & Er & Wr & _ & Pr).
  exists r. split; auto. split; auto. intros c Hc. rewrite Pr, Pl, Pm by lia. unfold s_inter. destruct (t c); reflexivity.
Qed.
Lemma removeAll_correct : correct2 removeAll s_diff.
Proof.
  intros l m s t [Wl Pl] [Wm Pm]. destruct (retainList_spec l m true Wl Wm) as (r & Er & Wr & _ & Pr).
  exists r. split; auto. split; auto. intros c Hc. rewrite Pr, Pl, Pm by lia. unfold s_diff. destruct (t c); reflexivity.
Qed.
Lemma complementAll_correct : correct2 complementAll s_xor.
Proof.
  intros l m s t [Wl Pl] [Wm Pm]. destruct (exclusiveOrList_spec l m Wl Wm) as (r & Er & Wr & _ & Pr).
  exists r. split; auto. split; auto. intros c Hc. rewrite Pr, Pl, Pm by lia. reflexivity.
Qed.

Lemma merge_call_sim f g h st o p : correct2 f g -> R h st -> (o < length st)%nat -> (p < length st)%nat ->
  exists h', merge_call f h o p = Ok (h', Done) /\ R h' (replace st o (g (sget st o) (sget st p))).
Proof.
  intros C HR Ho Hp. destruct (R_look _ _ _ HR Ho) as (a & l & Ea & L1 & El & D1).
  destruct (R_look _ _ _ HR Hp) as (a2 & m & Ea2 & L2 & Em & D2).
  unfold merge_call. rewrite L1. cbn [bind]. rewrite L2. cbn [bind].
  destruct (C _ _ _ _ D1 D2) as (r & Er & Dr). rewrite Er. cbn [bind].
  eexists; split; [reflexivity|]. apply R_rebind; auto.
Qed.

Lemma range_call_sim f g h st o a b :
  (forall l s, denotes l s -> exists r, f l a b = Ok r /\ denotes r (g s (s_span a b))) ->
  pin a < pin b -> R h st -> (o < length st)%nat ->
  exists h', range_call f h o a b = Ok (h', Done) /\ R h' (replace st o (g (sget st o) (s_span a b))).
Proof.
  intros C Hab HR Ho. destruct (R_look _ _ _ HR Ho) as (x & l & Ea & L1 & El & D1).
  unfold range_call. rewrite L1. cbn [bind]. destruct (pin a <? pin b) eqn:E; [|lia].
  destruct (C _ _ D1) as (r & Er & Dr). rewrite Er. cbn [bind].
  eexists; split; [reflexivity|]. apply R_rebind; auto.
Qed.

Lemma replace_replace_snoc {A} (l : list A) x y : replace (l ++ [x]) (length l) y = l ++ [y].
Proof. induction l; simpl; [reflexivity|congruence]. Qed.

Lemma operator_call_sim f g h st o p : correct2 f g -> R h st -> (o < length st)%nat -> (p < length st)%nat ->
  exists h', operator_call f h o p = Ok (h', Created (length st)) /\
             R h' (st ++ [g (sget st o) (sget st p)]).
Proof.
  intros C HR Ho Hp. destruct (R_look _ _ _ HR Ho) as (a & l & Ea & L1 & El & D1).
  unfold operator_call, copy_call. rewrite L1. cbn [bind].
  pose proof (R_alloc _ _ (new_copy l) _ HR D1) as HR1.
  destruct (alloc h (new_copy l)) as [h1 out] eqn:Eal. cbn [bind fst] in *.
  assert (out = Created (length st)) by (unfold alloc in Eal; rewrite (R_len _ _ HR) in Eal; congruence). subst out.
  rewrite (R_len _ _ HR).
  destruct (merge_call_sim f g h1 (st ++ [sget st o]) (length st) p C HR1) as (h2 & E2 & HR2);
    try (rewrite app_length; simpl; lia).
  rewrite E2. cbn [bind]. exists h2. split; auto.
  rewrite replace_replace_snoc in HR2.
  assert (S1 : sget (st ++ [sget st o]) (length st) = sget st o).
  { unfold sget at 1. rewrite app_nth2, Nat.sub_diag by lia. reflexivity. }
  assert (S2 : sget (st ++ [sget st o]) p = sget st p).
  { unfold sget at 1. rewrite app_nth1 by lia. reflexivity. }
  rewrite S1, S2 in HR2. exact HR2.
Qed.

Lemma do_call_sim h st k : R h st -> legal_call (length st) k ->
  exists h', do_call h k = Ok (h', snd (spec_call st k)) /\ R h' (fst (spec_call st k)).
Proof.
  intros HR L. unfold legal_call, is_cp in L.
  assert (H0 : HIGH = 0x110000) by reflexivity.
  destruct k; simpl in L; cbn [do_call spec_call snew sset fst snd].
  - eexists. split; [unfold alloc; rewrite (R_len _ _ HR); reflexivity|].
    apply (R_alloc _ _ new_empty _ HR). split.
    + apply WF_intro; [repeat constructor|repeat constructor; unfold HIGH; lia|exists []; auto].
    + intros c Hc. cbn [par new_empty]. destruct (HIGH <=? c) eqn:E; [lia|reflexivity].
  - eexists. split; [unfold alloc; rewrite (R_len _ _ HR); reflexivity|].
    apply (R_alloc _ _ (new_int x) _ HR). destruct (new_int_spec x ltac:(lia)) as [W P].
    split; auto. intros; apply P; lia.
  - eexists. split; [unfold alloc; rewrite (R_len _ _ HR); reflexivity|].
    apply (R_alloc _ _ (new_range start stop) _ HR). destruct (new_range_spec start stop ltac:(lia) ltac:(lia)) as [W P].
    split; auto. intros c Hc. rewrite P by lia. unfold s_span. f_equal. lia.
  - destruct (R_look _ _ _ HR L) as (a & l & Ea & L1 & El & D1). unfold copy_call. rewrite L1. cbn [bind].
    eexists. split; [unfold alloc; rewrite (R_len _ _ HR); reflexivity|].
    apply (R_alloc _ _ (new_copy l) _ HR D1).
  - destruct L as [Lo Lx]. destruct (R_look _ _ _ HR Lo) as (a & l & Ea & L1 & El & [W1 P1]).
    unfold add_call. rewrite L1. cbn [bind].
    destruct (add_spec l x W1 ltac:(lia)) as (r & Er & Wr & Pr). rewrite Er. cbn [bind].
    eexists; split; [reflexivity|]. apply R_inplace; auto. split; auto.
    intros c Hc. rewrite Pr, P1 by lia. reflexivity.
  - destruct L as (Lo & La & Lb & Lab). destruct (R_look _ _ _ HR Lo) as (ad & l & Ea & L1 & El & [W1 P1]).
    unfold addRange_call. rewrite L1. cbn [bind].
    destruct (addRange_spec l a b W1) as (r & v & Er & Wr & _ & Pr); [unfold legal_range; lia|].
    rewrite Er. cbn [bind].
    assert (D : denotes r (s_union (sget st o) (s_span a b))).
    { split; auto. intros c Hc. rewrite Pr, P1 by lia. reflexivity. }
    destruct v; [destruct (pin a <? pin b)|]; eexists; (split; [reflexivity|]).
    + apply R_rebind; auto.
    + apply R_inplace; auto.
    + apply R_inplace; auto.
  - destruct L. apply merge_call_sim; auto using addAll_correct.
  - destruct L as (Lo & La & Lb & Lab). apply range_call_sim; auto; [|rewrite !pin_id by lia; lia].
    intros l s [W P]. destruct (removeRange_spec l a b W) as (r & Er & Wr & _ & Pr); [unfold legal_range; lia|lia|].
    exists r. split; auto. split; auto. intros c Hc. rewrite Pr, P by lia. reflexivity.
  - destruct L. apply merge_call_sim; auto using removeAll_correct.
  - destruct L as (Lo & La & Lb & Lab). apply range_call_sim; auto; [|rewrite !pin_id by lia; lia].
    intros l s [W P]. destruct (retainRange_spec l a b W) as (r & Er & Wr & _ & Pr); [unfold legal_range; lia|lia|].
    exists r. split; auto. split; auto. intros c Hc. rewrite Pr, P by lia. reflexivity.
  - destruct L. apply merge_call_sim; auto using retainAll_correct.
  - destruct L as (Lo & La & Lb & Lab). apply range_call_sim; auto; [|rewrite !pin_id by lia; lia].
    intros l s [W P]. destruct (complementRange_spec l a b W) as (r & Er & Wr & _ & Pr); [unfold legal_range; lia|lia|].
    exists r. split; auto. split; auto. intros c Hc. rewrite Pr, P by lia. reflexivity.
  - destruct (R_look _ _ _ HR L) as (a & l & Ea & L1 & El & [W1 P1]).
    unfold complement_call. rewrite L1. cbn [bind].
    destruct (complement_spec l W1) as (r & Er & Wr & _ & Pr).
    assert (exists x, py_get l 0 = Ok x) as (x & Ex).
    { destruct l as [|x l]; [destruct W1 as (_ & _ & N & _); congruence|]. exists x; reflexivity. }
    rewrite Ex, Er. cbn [bind].
    assert (D : denotes r (s_compl (sget st o))).
    { split; auto. intros c Hc. rewrite Pr, P1 by lia. reflexivity. }
    destruct (x =? LOW); eexists; (split; [reflexivity|]); [apply R_rebind|apply R_inplace]; auto.
  - destruct L. apply merge_call_sim; auto using complementAll_correct.
  - destruct (R_look _ _ _ HR L) as (a & l & Ea & L1 & El & D1). rewrite L1. cbn [bind].
    eexists; split; [reflexivity|]. apply R_rebind; auto. split.
    + apply WF_intro; [repeat constructor|repeat constructor; unfold HIGH; lia|exists []; auto].
    + intros c Hc. cbn [par clear]. destruct (HIGH <=? c) eqn:E; [lia|reflexivity].
  - destruct L. apply operator_call_sim; auto using addAll_correct.
  - destruct L. apply operator_call_sim; auto using retainAll_correct.
  - destruct L. apply operator_call_sim; auto using removeAll_correct.
  - destruct L. apply operator_call_sim; auto using complementAll_correct.
  - destruct L as [Lo Lx]. destruct (R_look _ _ _ HR Lo) as (a & l & Ea & L1 & El & [W1 P1]).
    rewrite L1. cbn [bind]. rewrite contains_par by (auto; lia). cbn [bind].
    eexists; split; [rewrite P1 by lia; reflexivity|exact HR].
Qed.

Lemma spec_call_len st k : legal_call (length st) k ->
  length (fst (spec_call st k)) = (if creates k then S (length st) else length st).
Proof.
  intros _. destruct k; simpl; unfold snew, sset; simpl; rewrite ?app_length, ?replace_length; simpl; lia.
Qed.

Lemma run_sim : forall ks h st, R h st -> legal_run (length st) ks ->
  exists h', run_calls h ks = Ok (h', snd (spec_run st ks)) /\ R h' (fst (spec_run st ks)).
Proof.
  induction ks as [|k ks IH]; intros h st HR L; simpl.
  - exists h; auto.
  - destruct L as [L1 L2]. destruct (do_call_sim h st k HR L1) as (h1 & E1 & HR1).
    rewrite E1. cbn [bind]. rewrite <- (spec_call_len st k L1) in L2.
    destruct (spec_call st k) as [st1 o1]. simpl in *.
    destruct (IH h1 st1 HR1 L2) as (h2 & E2 & HR2). rewrite E2. cbn [bind].
    destruct (spec_run st1 ks) as [st2 os]. simpl in *. eauto.
Qed.

Lemma R_empty : R empty_heap [].
Proof. split; simpl; auto; [constructor|]. intros [|o] a; discriminate. Qed.
