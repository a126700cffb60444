(** * Properties C01 - C19: UnicodeSet.

    [built l]    the state of a set made through the API with legal arguments;
    [is_set l s] [contains] answers membership in the mathematical set [s] for
                 every code point (UnicodeSetReach.v);
    [s_union] .. the mathematical operations (SpecSet.v). *)
From Coq Require Import ZArith List Bool Lia Sorted.
From Verif Require Import Py UnicodeSet SpecSet UnicodeSetHeap UnicodeSetReach UnicodeSetLaws.
Import ListNotations.
Open Scope Z_scope.

(** Every reachable set denotes a mathematical set, so the hypotheses [is_set]
    below can always be met. *)
Theorem C00_membership_total : forall A, built A -> exists s, is_set A s.
Proof. exact built_is_set. Qed.
Print Assumptions C00_membership_total.

(** A reachable set with three ranges, used as a witness below. *)
Definition sampleA : uset := [65; 91; 97; 123; 0x1F600; 0x1F650; 0x110000].
Definition sampleB : uset := [88; 100; 0x10000; 0x110000].
Lemma sampleA_built : built sampleA.
Proof.
  apply (b_addRange [65; 91; 97; 123; 0x110000] 0x1F600 0x1F64F _ RNone); try (unfold is_cp; lia).
  2: vm_compute; reflexivity.
  apply (b_addRange [65; 91; 0x110000] 97 122 _ RNone); try (unfold is_cp; lia).
  2: vm_compute; reflexivity.
  apply (b_range 65 91); lia.
Qed.
Lemma sampleB_built : built sampleB.
Proof.
  apply (b_addRange [88; 100; 0x110000] 0x10000 0x10FFFF _ RNone); try (unfold is_cp; lia).
  2: vm_compute; reflexivity.
  apply (b_range 88 100); lia.
Qed.

(** ** C01 *)
Theorem C01_union : forall A B s t, built A -> built B -> is_set A s -> is_set B t ->
  (exists r, addAll A B = Ok r /\ built r /\ is_set r (s_union s t)) /\
  (exists r, union A B = Ok r /\ built r /\ is_set r (s_union s t)).
Proof. exact (fun A B s t a b c d => conj (proj1 union_ok A B s t a b c d) (proj2 union_ok A B s t a b c d)). Qed.
Print Assumptions C01_union.
Example C01_case : exists r, union sampleA sampleB = Ok r /\ contains r 95 = Ok true /\ contains r 96 = Ok true /\ contains r 64 = Ok false.
Proof. eexists. split; [vm_compute; reflexivity|vm_compute; auto]. Qed.

(** ** C02 *)
Theorem C02_intersection : forall A B s t, built A -> built B -> is_set A s -> is_set B t ->
  (exists r, retainAll A B = Ok r /\ built r /\ is_set r (s_inter s t)) /\
  (exists r, intersection A B = Ok r /\ built r /\ is_set r (s_inter s t)).
Proof. exact (fun A B s t a b c d => conj (proj1 intersection_ok A B s t a b c d) (proj2 intersection_ok A B s t a b c d)). Qed.
Print Assumptions C02_intersection.
Example C02_case : intersection sampleA sampleB = Ok [88; 91; 97; 100; 0x1F600; 0x1F650; 0x110000].
Proof. vm_compute. reflexivity. Qed.

(** ** C03 *)
Theorem C03_difference : forall A B s t, built A -> built B -> is_set A s -> is_set B t ->
  (exists r, removeAll A B = Ok r /\ built r /\ is_set r (s_diff s t)) /\
  (exists r, difference A B = Ok r /\ built r /\ is_set r (s_diff s t)).
Proof. exact (fun A B s t a b c d => conj (proj1 difference_ok A B s t a b c d) (proj2 difference_ok A B s t a b c d)). Qed.
Print Assumptions C03_difference.
Example C03_case : difference sampleA sampleB = Ok [65; 88; 100; 123; 0x110000].
Proof. vm_compute. reflexivity. Qed.

(** ** C04 *)
Theorem C04_symmetric_difference : forall A B s t, built A -> built B -> is_set A s -> is_set B t ->
  (exists r, complementAll A B = Ok r /\ built r /\ is_set r (s_xor s t)) /\
  (exists r, symmetric_difference A B = Ok r /\ built r /\ is_set r (s_xor s t)).
Proof. exact (fun A B s t a b c d => conj (proj1 symdiff_ok A B s t a b c d) (proj2 symdiff_ok A B s t a b c d)). Qed.
Print Assumptions C04_symmetric_difference.
Example C04_case : symmetric_difference sampleA sampleB =
  Ok [65; 88; 91; 97; 100; 123; 0x10000; 0x1F600; 0x1F650; 0x110000].
Proof. vm_compute. reflexivity. Qed.

(** ** C05 *)
Theorem C05_complement : forall A s, built A -> is_set A s ->
  exists r, complement A = Ok r /\ built r /\ is_set r (s_compl s) /\
  exists r2, complement r = Ok r2 /\ is_set r2 s.
Proof. exact complement_ok. Qed.
Print Assumptions C05_complement.
Example C05_case : complement sampleB = Ok [0; 88; 100; 0x10000; 0x110000].
Proof. vm_compute. reflexivity. Qed.

(** ** C06 *)
Theorem C06_add : forall A s x, built A -> is_set A s -> is_cp x ->
  exists r, add A x = Ok r /\ built r /\ is_set r (s_union s (s_single x)) /\
            (contains A x = Ok true -> r = A).
Proof. exact add_ok. Qed.
Print Assumptions C06_add.
Example C06_case : add sampleA 91 = Ok [65; 92; 97; 123; 0x1F600; 0x1F650; 0x110000] /\
  add [65; 91; 92; 100; 0x110000] 91 = Ok [65; 100; 0x110000].
Proof. vm_compute. auto. Qed.

(** ** C07 *)
Theorem C07_addRange : forall A s a b, built A -> is_set A s -> is_cp a -> is_cp b -> a <= b ->
  exists r v, addRange A a b = Ok (r, v) /\ built r /\ is_set r (s_union s (s_span a b)).
Proof. exact addRange_ok. Qed.
Print Assumptions C07_addRange.
Example C07_case : addRange sampleA 80 99 = Ok ([65; 123; 0x1F600; 0x1F650; 0x110000], RSelf).
Proof. vm_compute. reflexivity. Qed.

(** ** C08: exact for ranges of two or more code points and for end < start;
    false for a range of one code point, which is left unchanged. *)
Theorem C08_range_operations_partial : forall A s a b, built A -> is_set A s -> is_cp a -> is_cp b ->
  (a < b -> (exists r, removeRange A a b = Ok r /\ built r /\ is_set r (s_diff s (s_span a b))) /\
            (exists r, retainRange A a b = Ok r /\ built r /\ is_set r (s_inter s (s_span a b))) /\
            (exists r, complementRange A a b = Ok r /\ built r /\ is_set r (s_xor s (s_span a b)))) /\
  (b < a -> removeRange A a b = Ok A /\ retainRange A a b = Ok A /\ complementRange A a b = Ok A).
Proof.
  exact (fun A s a b BA IA Ha Hb =>
    conj (fun L => conj (proj1 (removeRange_ok A s a b BA IA Ha Hb) L)
                  (conj (proj1 (retainRange_ok A s a b BA IA Ha Hb) L)
                        (proj1 (complementRange_ok A s a b BA IA Ha Hb) L)))
         (fun L => conj (proj2 (removeRange_ok A s a b BA IA Ha Hb) L)
                  (conj (proj2 (retainRange_ok A s a b BA IA Ha Hb) L)
                        (proj2 (complementRange_ok A s a b BA IA Ha Hb) L)))).
Qed.
Print Assumptions C08_range_operations_partial.
(** complement(range(start, stop)): [stop] is not in the range. *)
Theorem C08_python_range_partial : forall A s start stop, built A -> is_set A s -> is_cp start -> is_cp (stop - 1) ->
  (start < stop - 1 -> exists r, complement_range A start stop = Ok r /\ built r /\ is_set r (s_xor s (fun c => (start <=? c) && (c <? stop)))) /\
  (stop <= start -> complement_range A start stop = Ok A).
Proof.
  intros A s start stop BA IA Ha Hb. unfold complement_range. split; intros L.
  - destruct (proj1 (complementRange_ok A s start (stop - 1) BA IA Ha Hb) L) as (r & E & B & I). exists r. split; [exact E|]. split; [exact B|].
    intros c Hc. rewrite (I c Hc). unfold s_xor, s_span. do 3 f_equal. lia.
  - apply (proj2 (complementRange_ok A s start (stop - 1) BA IA Ha Hb)). lia.
Qed.
Print Assumptions C08_python_range_partial.
Example C08_case : removeRange sampleA 70 99 = Ok [65; 70; 100; 123; 0x1F600; 0x1F650; 0x110000] /\
  retainRange sampleA 70 99 = Ok [70; 91; 97; 100; 0x110000] /\
  complementRange sampleA 70 99 = Ok [65; 70; 91; 97; 100; 123; 0x1F600; 0x1F650; 0x110000].
Proof. vm_compute. auto. Qed.

Theorem C08_range_operations_refuted : exists A a b, built A /\ is_cp a /\ is_cp b /\ a <= b /\
  (exists r, removeRange A a b = Ok r /\ contains r a = Ok true) /\
  (exists r c, retainRange A a b = Ok r /\ is_cp c /\ ~ (a <= c <= b) /\ contains r c = Ok true) /\
  (exists r, complementRange A a b = Ok r /\ contains A a = Ok true /\ contains r a = Ok true).
Proof.
  exists sampleA, 70, 70. split; [exact sampleA_built|]. unfold is_cp.
  repeat (split; [lia|]). split; [eexists; split; vm_compute; reflexivity|].
  split; [|eexists; repeat split; vm_compute; reflexivity].
  eexists. exists 71. split; [vm_compute; reflexivity|]. split; [lia|]. split; [lia|vm_compute; reflexivity].
Qed.
Print Assumptions C08_range_operations_refuted.

(** ** C09: remove(x), retain(x) and complement(x) never change any set. *)
Theorem C09_single_refuted : exists A x, built A /\ is_cp x /\ contains A x = Ok true /\
  (exists r, remove A x = Ok r /\ contains r x = Ok true) /\
  (exists r c, retain A x = Ok r /\ c <> x /\ contains r c = Ok true) /\
  (exists r, complement_int A x = Ok r /\ contains r x = Ok true).
Proof.
  exists sampleA, 70. split; [exact sampleA_built|]. unfold is_cp. split; [lia|]. split; [reflexivity|].
  split; [eexists; split; vm_compute; reflexivity|]. split; [|eexists; split; vm_compute; reflexivity].
  eexists. exists 71. split; [vm_compute; reflexivity|]. split; [lia|vm_compute; reflexivity].
Qed.
Print Assumptions C09_single_refuted.
Theorem C09_single_never_changes_anything : forall A x,
  remove A x = Ok A /\ retain A x = Ok A /\ complement_int A x = Ok A.
Proof. exact single_noop. Qed.
Print Assumptions C09_single_never_changes_anything.

(** ** C10: every legal history gives exactly the outcomes of the same history on
    mathematical sets.  [legal_run] excludes the one-element range operations of
    C08, for which the claim is false. *)
Theorem C10_histories_partial : forall ks, legal_run 0 ks ->
  exists h, run_calls empty_heap ks = Ok (h, snd (spec_run [] ks)).
Proof. exact histories_ok. Qed.
Print Assumptions C10_histories_partial.
Definition sample_history : list call :=
  [NewRange 65 91; NewCopy 0; Add 1 97; Union 0 1; AddRange 2 0x10000 0x10FFFF;
   Contains 0 97; Contains 1 97; Contains 2 97; AddAll 0 0; RemoveAll 1 0; Contains 1 65;
   Contains 1 97; Complement 1; Contains 2 97; Contains 1 97].
Example C10_case : legal_run 0 sample_history /\
  exists h, run_calls empty_heap sample_history =
    Ok (h, [Created 0; Created 1; Done; Created 2; Done; Answer false; Answer true; Answer true;
            Done; Done; Answer false; Answer true; Done; Answer true; Answer false]).
Proof.
  split; [cbn; unfold is_cp; intuition lia|]. eexists. vm_compute. reflexivity.
Qed.
Theorem C10_histories_refuted : exists ks h outs,
  run_calls empty_heap ks = Ok (h, outs) /\ outs <> snd (spec_run [] ks) /\
  ks = [NewInt 65; RemoveRange 0 65 65; Contains 0 65].
Proof.
  eexists _, _, _. split; [|split; [|reflexivity]]; [vm_compute; reflexivity|vm_compute; discriminate].
Qed.
Print Assumptions C10_histories_refuted.

(** ** C11: == implies the same members for all sets; the converse holds for sets
    built without union and without the degenerate constructor arguments, and is
    false in general. *)
Theorem C11_equality_partial : forall A B,
  (UnicodeSet.eq A B = true -> forall c, contains A c = contains B c) /\
  (clean A -> clean B -> (forall c, is_cp c -> contains A c = contains B c) -> UnicodeSet.eq A B = true) /\
  ne A B = negb (UnicodeSet.eq A B).
Proof. exact (fun A B => conj (eq_observes A B) (conj (fun a b => proj2 (eq_clean A B a b)) eq_refl)). Qed.
Print Assumptions C11_equality_partial.
Lemma sampleA_clean : clean sampleA.
Proof.
  apply (c_addRange [65; 91; 97; 123; 0x110000] 0x1F600 0x1F64F _ RNone); try (unfold is_cp; lia).
  2: vm_compute; reflexivity.
  apply (c_addRange [65; 91; 0x110000] 97 122 _ RNone); try (unfold is_cp; lia).
  2: vm_compute; reflexivity.
  apply (c_range 65 91); lia.
Qed.
Theorem C11_equality_refuted : exists A B C, built A /\ built B /\ union A B = Ok C /\ built C /\
  exists D, built D /\ (forall c, is_cp c -> contains C c = contains D c) /\ UnicodeSet.eq C D = false.
Proof.
  pose (A := new_range 1 5).
  assert (HA : built A) by (apply b_range; lia).
  assert (HB : built [2; 3; 5; 7; 0x110000]).
  { apply (b_addRange (new_range 2 3) 5 6 _ RNone); try (unfold is_cp; lia); [apply b_range; lia|vm_compute; reflexivity]. }
  assert (HC : union A [2; 3; 5; 7; 0x110000] = Ok [1; 5; 5; 7; 0x110000]) by (vm_compute; reflexivity).
  assert (BC : built [1; 5; 5; 7; 0x110000]) by exact (b_addAll _ _ _ HA HB HC).
  exists A, [2; 3; 5; 7; 0x110000], [1; 5; 5; 7; 0x110000]. repeat (split; auto).
  exists (new_range 1 7). assert (BD : built (new_range 1 7)) by (apply b_range; lia).
  split; auto. split; [|reflexivity]. intros c Hc.
  rewrite !UnicodeSetFacts.contains_par; try (apply built_WF; auto); try (unfold is_cp, HIGH in *; lia).
  f_equal. cbn [UnicodeSetFacts.par new_range]. unfold HIGH.
  destruct (5 <=? c); destruct (1 <=? c); destruct (7 <=? c); destruct (0x110000 <=? c); reflexivity.
Qed.
Print Assumptions C11_equality_refuted.

(** ** C12 *)
Theorem C12_iteration : forall A, built A ->
  exists es, iter A = Ok es /\ StronglySorted Z.lt es /\ size A = Ok (Z.of_nat (length es)) /\
    forall c, In c es <-> is_cp c /\ contains A c = Ok true.
Proof. exact iter_ok. Qed.
Print Assumptions C12_iteration.
Example C12_case : iter [65; 68; 97; 99; 0x110000] = Ok [65; 66; 67; 97; 98] /\ size sampleA = Ok 132.
Proof. vm_compute. auto. Qed.

(** ** C13 *)
Theorem C13_charAt : forall A es i, built A -> iter A = Ok es ->
  charAt A i = Ok (if i <? 0 then None else nth_error es (Z.to_nat i)).
Proof. exact charAt_ok. Qed.
Print Assumptions C13_charAt.
Theorem C13_indexOf : forall A es c, built A -> iter A = Ok es ->
  exists r, indexOf A c = Ok r /\
  forall k, r = Some k <-> 0 <= k /\ nth_error es (Z.to_nat k) = Some c.
Proof. exact indexOf_ok. Qed.
Print Assumptions C13_indexOf.
Theorem C13_inverse : forall A i c k, built A ->
  (charAt A i = Ok (Some c) -> indexOf A c = Ok (Some i)) /\
  (indexOf A c = Ok (Some k) -> charAt A k = Ok (Some c)).
Proof. exact inverse_ok. Qed.
Print Assumptions C13_inverse.
Example C13_case : charAt sampleA 26 = Ok (Some 97) /\ indexOf sampleA 97 = Ok (Some 26) /\
  charAt sampleA 132 = Ok None /\ charAt sampleA (-1) = Ok None /\ indexOf sampleA 95 = Ok None.
Proof. vm_compute. auto 6. Qed.

(** ** C14: [ascending lo rs]: the ranges are in order, starting at [lo], and do
    not overlap. *)
Theorem C14_ranges : forall A, built A ->
  exists rs, getRanges A = Ok rs /\ getRangeCount A = Z.of_nat (length rs) /\ ascending 0 rs /\
    (forall c, is_cp c -> (contains A c = Ok true <-> exists a b, In (a, b) rs /\ a <= c < b)) /\
    (forall i, 0 <= i < getRangeCount A -> exists a b, nth_error rs (Z.to_nat i) = Some (a, b) /\
        getRangeStart A i = Ok a /\ getRangeEnd A i = Ok (b - 1)).
Proof. exact ranges_ok. Qed.
Print Assumptions C14_ranges.
Example C14_case : getRanges sampleB = Ok [(88, 100); (0x10000, 0x110000)].
Proof. vm_compute. reflexivity. Qed.

(** ** C15: right for non-empty ranges on sets built without union and without
    the degenerate constructor arguments; false otherwise. *)
Theorem C15_contains_range_partial : forall A a b, clean A -> is_cp a -> a < b -> b <= 0x110000 ->
  exists r, contains_range A a b = Ok r /\
    (r = true <-> forall c, a <= c < b -> contains A c = Ok true).
Proof. exact contains_range_ok. Qed.
Print Assumptions C15_contains_range_partial.
Example C15_case : contains_range sampleA 65 91 = Ok true /\ contains_range sampleA 65 92 = Ok false.
Proof. vm_compute. auto. Qed.
(** a non-empty range that is contained, for which the answer is False *)
Theorem C15_contains_range_refuted : exists A a b, built A /\ is_cp a /\ a < b /\ b <= 0x110000 /\
  (forall c, a <= c < b -> contains A c = Ok true) /\ contains_range A a b = Ok false.
Proof.
  assert (HB : built [2; 3; 5; 7; 0x110000]).
  { apply (b_addRange (new_range 2 3) 5 6 _ RNone); try (unfold is_cp; lia); [apply b_range; lia|vm_compute; reflexivity]. }
  assert (HC : union (new_range 1 5) [2; 3; 5; 7; 0x110000] = Ok [1; 5; 5; 7; 0x110000]) by (vm_compute; reflexivity).
  exists [1; 5; 5; 7; 0x110000], 1, 7. unfold is_cp.
  split; [exact (b_addAll _ _ _ (b_range 1 5 ltac:(lia) ltac:(lia)) HB HC)|].
  repeat (split; [lia|]). split; [|vm_compute; reflexivity].
  intros c Hc. assert (c = 1 \/ c = 2 \/ c = 3 \/ c = 4 \/ c = 5 \/ c = 6) as D by lia.
  repeat destruct D as [->|D]; try (subst c); vm_compute; reflexivity.
Qed.
Print Assumptions C15_contains_range_refuted.
(** an empty range, whose elements are all contained, for which the answer is False *)
Theorem C15_empty_range_refuted : exists A a b, clean A /\ b <= a /\ contains_range A a b = Ok false.
Proof. exists sampleA, 50, 50. split; [exact sampleA_clean|]. split; [lia|vm_compute; reflexivity]. Qed.
Print Assumptions C15_empty_range_refuted.

(** ** C16: contains(x) never raises, and is False below 0; for x > 0x10FFFF it
    may answer True. *)
Theorem C16_contains_partial : forall A x, built A ->
  (exists r, contains A x = Ok r) /\ (x < 0 -> contains A x = Ok false).
Proof. exact contains_total. Qed.
Print Assumptions C16_contains_partial.
Theorem C16_contains_refuted : exists A x, built A /\ ~ is_cp x /\ contains A x = Ok true.
Proof.
  exists sampleB, 0x110000. split; [exact sampleB_built|]. split; [unfold is_cp; lia|vm_compute; reflexivity].
Qed.
Print Assumptions C16_contains_refuted.

(** ** C17: every Boolean identity holds of the set operators.  [eval] computes a
    set expression with the API, [beval] reads it as a Boolean formula. *)
Theorem C17_laws : forall env e f, (forall n, built (env n)) -> (forall v, beval v e = beval v f) ->
  exists x y, eval env e = Ok x /\ eval env f = Ok y /\ forall c, is_cp c -> contains x c = contains y c.
Proof. exact laws_ok. Qed.
Print Assumptions C17_laws.
Example C17_de_morgan : forall A B, built A -> built B ->
  exists x y, eval (fun n => if Nat.eqb n 0 then A else B) (ECompl (EUnion (EVar 0) (EVar 1))) = Ok x /\
              eval (fun n => if Nat.eqb n 0 then A else B) (EInter (ECompl (EVar 0)) (ECompl (EVar 1))) = Ok y /\
              forall c, is_cp c -> contains x c = contains y c.
Proof.
  intros A B HA HB. apply C17_laws; [intros n; destruct (Nat.eqb n 0); auto|].
  intros v. simpl. destruct (v 0%nat), (v 1%nat); reflexivity.
Qed.
Example C17_distributes_and_xor : 
  (forall v, beval v (EInter (EVar 0) (EUnion (EVar 1) (EVar 2))) =
             beval v (EUnion (EInter (EVar 0) (EVar 1)) (EInter (EVar 0) (EVar 2)))) /\
  (forall v, beval v (EXor (EVar 0) (EVar 1)) =
             beval v (EUnion (EDiff (EVar 0) (EVar 1)) (EDiff (EVar 1) (EVar 0)))).
Proof. split; intros v; simpl; destruct (v 0%nat), (v 1%nat), (v 2%nat); reflexivity. Qed.

(** ** C18: addRange returns None instead of self on its fast path. *)
Theorem C18_returns_self_refuted : exists A a b r, built A /\ is_cp a /\ is_cp b /\ a <= b /\
  addRange A a b = Ok (r, RNone).
Proof.
  exists new_empty, 65, 90. eexists. unfold is_cp. split; [exact b_new|].
  repeat (split; [lia|]). vm_compute. reflexivity.
Qed.
Print Assumptions C18_returns_self_refuted.
(** It does return self when some element at or above start is present. *)
Theorem C18_returns_self_partial : forall A a b c r v, built A -> is_cp a -> is_cp b ->
  addRange A a b = Ok (r, v) -> is_cp c -> a <= c -> contains A c = Ok true -> v = RSelf.
Proof. exact addRange_self. Qed.
Print Assumptions C18_returns_self_partial.
Example C18_case : exists r, addRange sampleA 80 99 = Ok (r, RSelf).
Proof. eexists. vm_compute. reflexivity. Qed.

(** ** C19 *)
Theorem C19_constructors :
  is_set new_empty s_empty /\
  (forall x, is_cp x -> is_set (new_int x) (s_single x)) /\
  (forall a b, 0 <= a <= b -> b <= 0x110000 -> is_set (new_range a b) (s_span a (b - 1))) /\
  (forall l s, is_set l s -> is_set (new_copy l) s).
Proof. exact constructors_ok. Qed.
Print Assumptions C19_constructors.
Example C19_case : contains (new_int 0x10FFFF) 0x10FFFF = Ok true /\ contains (new_range 5 5) 5 = Ok false.
Proof. vm_compute. auto. Qed.
(** A range object that is empty because stop < start is legal in Python; the set
    built from it answers wrongly after an [add]. *)
Theorem C19_descending_range_refuted : exists a b x r, is_cp a /\ is_cp b /\ is_cp x /\
  add (new_range a b) x = Ok r /\ contains r x = Ok false.
Proof. exists 5, 3, 4. eexists. unfold is_cp. repeat (split; [lia|]). split; vm_compute; reflexivity. Qed.
Print Assumptions C19_descending_range_refuted.
