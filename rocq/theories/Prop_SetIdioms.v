(** * C128: what can be written instead of the calls that fail *)
From Coq Require Import ZArith List Bool Lia ZifyBool.
From Verif Require Import Py UnicodeSet SpecSet UnicodeSetFacts UnicodeSetReach UnicodeSetLaws Prop_UnicodeSet Prop_Counting.
Import ListNotations.
Open Scope Z_scope.

Lemma none_of A s n : built A -> is_set A s -> size A = Ok n -> 0 <= n /\ (n = 0 <-> forall c, is_cp c -> s c = false).
Proof.
  intros B I Z. destruct (size_lists A s B I) as (l & [_ L] & E). assert (n = Z.of_nat (length l)) by congruence. subst n. split; [lia|]. split.
  - intros Q c Hc. destruct l as [|y l]; [|cbn [length] in Q; lia]. apply not_true_iff_false. intros X. apply (proj2 (L c) (conj Hc X)).
  - intros Q. destruct l as [|y l]; [reflexivity|]. destruct (proj1 (L y) (or_introl eq_refl)) as [Hy X]. rewrite (Q y Hy) in X. discriminate.
Qed.
Lemma answer A c : built A -> is_cp c -> contains A c = Ok (mem A c).
Proof. intros B Hc. exact (mem_set A B c Hc). Qed.
(** *** [s.size() == 0]: the set is empty, however it was made. *)
Theorem C128_empty : forall A, built A -> exists n, size A = Ok n /\ (n = 0 <-> forall c, is_cp c -> contains A c = Ok false).
Proof.
  intros A B. destruct (size_lists A _ B (mem_set A B)) as (l & _ & Z). eexists. split; [exact Z|]. rewrite (proj2 (none_of A _ _ B (mem_set A B) Z)).
  split; intros H c Hc; specialize (H c Hc); rewrite (answer A c B Hc) in *; congruence.
Qed.
Print Assumptions C128_empty.
(** *** [(s ^ t).size() == 0]: the sets have the same code points.  [s == t] may say no (C11). *)
Theorem C128_equal : forall A B, built A -> built B -> exists x n, symmetric_difference A B = Ok x /\ size x = Ok n /\ (n = 0 <-> forall c, is_cp c -> contains A c = contains B c).
Proof.
  intros A B HA HB. destruct (C04_symmetric_difference A B _ _ HA HB (mem_set A HA) (mem_set B HB)) as [_ (x & X & BX & SX)]. destruct (size_lists x _ BX SX) as (l & _ & Z).
  do 2 eexists. split; [exact X|]. split; [exact Z|]. rewrite (proj2 (none_of x _ _ BX SX Z)). split; intros H c Hc; specialize (H c Hc); rewrite (answer A c HA Hc), (answer B c HB Hc) in *; unfold s_xor in *.
  - f_equal. destruct (mem A c), (mem B c); try reflexivity; discriminate.
  - injection H as ->. apply xorb_nilpotent.
Qed.
Print Assumptions C128_equal.
(** *** [(s & t).size() == 0]: no code point in both. *)
Theorem C128_disjoint : forall A B, built A -> built B -> exists i n, intersection A B = Ok i /\ size i = Ok n /\ (n = 0 <-> forall c, is_cp c -> contains A c = Ok true -> contains B c = Ok false).
Proof.
  intros A B HA HB. destruct (C02_intersection A B _ _ HA HB (mem_set A HA) (mem_set B HB)) as [_ (x & X & BX & SX)]. destruct (size_lists x _ BX SX) as (l & _ & Z).
  do 2 eexists. split; [exact X|]. split; [exact Z|]. rewrite (proj2 (none_of x _ _ BX SX Z)). split; intros H c Hc; specialize (H c Hc); rewrite (answer A c HA Hc), (answer B c HB Hc) in *; unfold s_inter in *.
  - intros Q. injection Q as Q. rewrite Q in H. f_equal. exact H.
  - destruct (mem A c); [|reflexivity]. specialize (H eq_refl). injection H as ->. reflexivity.
Qed.
Print Assumptions C128_disjoint.
(** *** [(UnicodeSet(range(a, b)) - s).size() == 0]: all of the range is in the set.  [range(a, b) in s] may say no (C15). *)
Theorem C128_range : forall A a b, built A -> 0 <= a <= b -> b <= 0x110000 -> exists d n, difference (new_range a b) A = Ok d /\ size d = Ok n /\ (n = 0 <-> forall c, a <= c < b -> contains A c = Ok true).
Proof.
  intros A a b HA L H. pose proof (proj1 (proj2 (proj2 C19_constructors)) a b L H) as SR. assert (HR : built (new_range a b)) by (apply b_range; assumption).
  destruct (C03_difference (new_range a b) A _ _ HR HA SR (mem_set A HA)) as [_ (x & X & BX & SX)]. destruct (size_lists x _ BX SX) as (l & _ & Z).
  do 2 eexists. split; [exact X|]. split; [exact Z|]. rewrite (proj2 (none_of x _ _ BX SX Z)). unfold s_diff, s_span. split.
  - intros Q c R. assert (Hc : is_cp c) by (unfold is_cp; lia). specialize (Q c Hc). rewrite (answer A c HA Hc). f_equal. destruct (mem A c); [reflexivity|]. lia.
  - intros Q c Hc. destruct ((a <=? c) && (c <=? b - 1)) eqn:R; [|reflexivity]. specialize (Q c ltac:(lia)). rewrite (answer A c HA Hc) in Q. injection Q as ->. reflexivity.
Qed.
Print Assumptions C128_range.
(** *** [s.removeAll(UnicodeSet(c))], [retainAll], [complementAll] do what remove, retain and complement do not do
    for one code point (C09). *)
Definition exactly (r : uset) (P : Z -> Prop) : Prop := forall c, is_cp c -> exists x, contains r c = Ok x /\ (x = true <-> P c).
Theorem C128_single : forall A x, built A -> is_cp x -> exists r1 r2 r3,
  removeAll A (new_int x) = Ok r1 /\ exactly r1 (fun c => contains A c = Ok true /\ c <> x) /\
  retainAll A (new_int x) = Ok r2 /\ exactly r2 (fun c => contains A c = Ok true /\ c = x) /\
  complementAll A (new_int x) = Ok r3 /\ exactly r3 (fun c => if Z.eq_dec c x then contains A c = Ok false else contains A c = Ok true).
Proof.
  intros A x HA Hx. pose proof (proj1 (proj2 C19_constructors) x Hx) as SX. assert (HX : built (new_int x)) by (apply b_int; exact Hx). pose proof (mem_set A HA) as SA.
  destruct (C03_difference A _ _ _ HA HX SA SX) as [(r1 & E1 & _ & S1) _], (C02_intersection A _ _ _ HA HX SA SX) as [(r2 & E2 & _ & S2) _], (C04_symmetric_difference A _ _ _ HA HX SA SX) as [(r3 & E3 & _ & S3) _].
  exists r1, r2, r3. split; [exact E1|]. split; [intros c Hc; eexists; split; [exact (S1 c Hc)|]; rewrite (answer A c HA Hc); unfold s_diff, s_single|].
  { destruct (mem A c); cbn [andb]; [|intuition discriminate]. destruct (c =? x) eqn:E; cbn [negb]; [apply Z.eqb_eq in E|apply Z.eqb_neq in E]; intuition (discriminate || congruence). }
  split; [exact E2|]. split; [intros c Hc; eexists; split; [exact (S2 c Hc)|]; rewrite (answer A c HA Hc); unfold s_inter, s_single|].
  { destruct (mem A c); cbn [andb]; [|intuition discriminate]. destruct (c =? x) eqn:E; [apply Z.eqb_eq in E|apply Z.eqb_neq in E]; intuition (discriminate || congruence). }
  split; [exact E3|]. intros c Hc; eexists; split; [exact (S3 c Hc)|]; rewrite (answer A c HA Hc); unfold s_xor, s_single.
  destruct (Z.eq_dec c x) as [E|E]; [rewrite (proj2 (Z.eqb_eq c x) E)|rewrite (proj2 (Z.eqb_neq c x) E)]; destruct (mem A c); cbn [xorb]; split; congruence.
Qed.
Print Assumptions C128_single.
Example C128_case : (let* x := symmetric_difference [1; 5; 5; 7; 0x110000] (new_range 1 7) in size x) = Ok 0 /\ UnicodeSet.eq [1; 5; 5; 7; 0x110000] (new_range 1 7) = false /\
  (let* d := difference (new_range 4 6) [1; 5; 5; 7; 0x110000] in size d) = Ok 0 /\ contains_range [1; 5; 5; 7; 0x110000] 4 6 = Ok false /\
  (let* r := removeAll sampleA (new_int 70) in contains r 70) = Ok false /\ (let* r := remove sampleA 70 in contains r 70) = Ok true.
Proof. repeat split; vm_compute; reflexivity. Qed.
