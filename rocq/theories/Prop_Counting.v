(** * C127: sizes of sets *)
From Coq Require Import ZArith List Bool Lia ZifyBool Sorted Permutation.
From Verif Require Import Py UnicodeSet SpecSet UnicodeSetFacts UnicodeSetReach UnicodeSetLaws Prop_UnicodeSet.
Import ListNotations.
Open Scope Z_scope.

(** [s] has the members [l], each once *)
Definition lists (l : list Z) (s : cpset) : Prop := NoDup l /\ forall c, In c l <-> is_cp c /\ s c = true.
Definition mem (A : uset) : cpset := fun c => match contains A c with Ok b => b | Err _ => false end.
Lemma mem_set A : built A -> is_set A (mem A).
Proof. intros B c Hc. unfold mem. rewrite (contains_par A c) by (try apply built_WF, B; unfold is_cp in Hc; unfold HIGH; lia). reflexivity. Qed.
Lemma sorted_nodup l : StronglySorted Z.lt l -> NoDup l.
Proof. induction 1 as [|x l S IH F]; constructor; [|exact IH]. intros I. rewrite Forall_forall in F. specialize (F x I). lia. Qed.
Lemma size_lists A s : built A -> is_set A s -> exists l, lists l s /\ size A = Ok (Z.of_nat (length l)).
Proof.
  intros B I. destruct (iter_ok A B) as (es & _ & S & Z & M). exists es. split; [|exact Z]. split; [apply sorted_nodup, S|].
  intros c. rewrite M. split; intros [H Q]; (split; [exact H|]); rewrite (I c H) in *; congruence.
Qed.
Lemma lists_length l m s : lists l s -> lists m s -> length l = length m.
Proof. intros [N I] [N' I']. apply Permutation_length, NoDup_Permutation; [exact N|exact N'|]. intros c. rewrite I, I'. tauto. Qed.
Lemma lists_split l s p : lists l s -> lists (filter p l) (s_inter s p) /\ lists (filter (fun c => negb (p c)) l) (s_diff s p).
Proof.
  intros [N I]. split; (split; [apply NoDup_filter, N|]); intros c; rewrite filter_In, I; unfold s_inter, s_diff; destruct (s c), (p c); cbn; intuition discriminate.
Qed.
Lemma filter_two (p : Z -> bool) l : (length (filter p l) + length (filter (fun c => negb (p c)) l) = length l)%nat.
Proof. induction l as [|x l IH]; [reflexivity|]. cbn [filter]. destruct (p x); cbn [negb length]; lia. Qed.
Lemma lists_ext l s t : (forall c, is_cp c -> s c = t c) -> lists l s -> lists l t.
Proof. intros E [N I]. split; [exact N|]. intros c. rewrite I. split; intros [H Q]; (split; [exact H|]); rewrite (E c H) in *; exact Q. Qed.
(** the counting itself: disjoint parts *)
Lemma parts l m n s t u : lists l s -> lists m t -> lists n u -> (forall c, is_cp c -> u c = s c || t c) -> (forall c, is_cp c -> s c && t c = false) -> (length n = length l + length m)%nat.
Proof.
  intros L M N U D. rewrite <- (filter_two s n). destruct (lists_split n u s N) as [A B]. f_equal.
  - apply (lists_length _ _ s); [|exact L]. apply (lists_ext _ (s_inter u s)); [|exact A]. intros c H. unfold s_inter. rewrite (U c H). destruct (s c), (t c); reflexivity.
  - apply (lists_length _ _ t); [|exact M]. apply (lists_ext _ (s_diff u s)); [|exact B]. intros c H. unfold s_diff. rewrite (U c H). specialize (D c H). destruct (s c), (t c); try reflexivity; discriminate.
Qed.

(** *** (A | B).size() + (A & B).size() = A.size() + B.size(), and the same way for the other operators. *)
Theorem C127_sizes : forall A B, built A -> built B -> exists a b u i d x nu ni nd nx,
  size A = Ok a /\ size B = Ok b /\ union A B = Ok u /\ intersection A B = Ok i /\ difference A B = Ok d /\ symmetric_difference A B = Ok x /\
  size u = Ok nu /\ size i = Ok ni /\ size d = Ok nd /\ size x = Ok nx /\ nu + ni = a + b /\ nd + ni = a /\ nx + ni = nu.
Proof.
  intros A B HA HB. pose proof (mem_set A HA) as SA. pose proof (mem_set B HB) as SB. set (s := mem A) in *. set (t := mem B) in *.
  destruct (C01_union A B s t HA HB SA SB) as [_ (u & U & BU & SU)]. destruct (C02_intersection A B s t HA HB SA SB) as [_ (i & I & BI & SI)].
  destruct (C03_difference A B s t HA HB SA SB) as [_ (d & D & BD & SD)]. destruct (C04_symmetric_difference A B s t HA HB SA SB) as [_ (x & X & BX & SX)].
  destruct (size_lists A s HA SA) as (la & LA & ->), (size_lists B t HB SB) as (lb & LB & ->), (size_lists u _ BU SU) as (lu & LU & ZU), (size_lists i _ BI SI) as (li & LI & ZI), (size_lists d _ BD SD) as (ld & LD & ZD), (size_lists x _ BX SX) as (lx & LX & ZX).
  do 10 eexists. split; [reflexivity|]. split; [reflexivity|]. split; [exact U|]. split; [exact I|]. split; [exact D|]. split; [exact X|]. split; [exact ZU|]. split; [exact ZI|]. split; [exact ZD|]. split; [exact ZX|].
  assert (E1 : (length la = length ld + length li)%nat) by (apply (parts _ _ _ _ _ _ LD LI LA); intros c _; unfold s_diff, s_inter; destruct (s c), (t c); reflexivity).
  assert (E2 : (length lu = length ld + length lb)%nat) by (apply (parts _ _ _ _ _ _ LD LB LU); intros c _; unfold s_diff, s_union; destruct (s c), (t c); reflexivity).
  assert (E3 : (length lu = length lx + length li)%nat) by (apply (parts _ _ _ _ _ _ LX LI LU); intros c _; unfold s_xor, s_union, s_inter; destruct (s c), (t c); reflexivity).
  lia.
Qed.
Print Assumptions C127_sizes.
(** *** A set and its complement have 0x110000 code points together. *)
Theorem C127_complement : forall A, built A -> exists a r n, size A = Ok a /\ complement A = Ok r /\ size r = Ok n /\ a + n = 0x110000.
Proof.
  intros A HA. pose proof (mem_set A HA) as SA. set (s := mem A) in *. destruct (C05_complement A s HA SA) as (r & R & BR & SR & _).
  destruct (size_lists A s HA SA) as (la & LA & ->), (size_lists r _ BR SR) as (lr & LR & ZR). do 3 eexists. split; [reflexivity|]. split; [exact R|]. split; [exact ZR|].
  assert (K : forall N, Z.of_nat N = 0x110000 -> Z.of_nat (length la) + Z.of_nat (length lr) = 0x110000).
  { intros N EN. assert (L : lists (map Z.of_nat (seq 0 N)) (fun _ => true)).
    { split; [apply FinFun.Injective_map_NoDup; [intros x y E; lia|apply seq_NoDup]|]. intros c. rewrite in_map_iff. split.
      - intros (k & <- & I). apply in_seq in I. split; [unfold is_cp; lia|reflexivity].
      - intros [H _]. unfold is_cp in H. exists (Z.to_nat c). split; [lia|apply in_seq; lia]. }
    pose proof (parts _ _ _ _ _ _ LA LR L) as P. rewrite map_length, seq_length in P. rewrite <- EN, P; [lia| |]; intros c _; unfold s_compl; destruct (s c); reflexivity. }
  apply (K (Z.to_nat 0x110000)). apply Z2Nat.id. lia.
Qed.
Print Assumptions C127_complement.
(** *** A is part of B when A - B has no members, or A & B as many as A, or A | B as many as B. *)
Theorem C127_subset : forall A B d i u a b n, built A -> built B -> difference A B = Ok d -> intersection A B = Ok i -> union A B = Ok u -> size A = Ok a -> size B = Ok b -> n = (forall c, is_cp c -> contains A c = Ok true -> contains B c = Ok true) ->
  (size d = Ok 0 <-> n) /\ (size i = Ok a <-> n) /\ (size u = Ok b <-> n).
Proof.
  intros A B d i u a b n HA HB D I U SA SB ->. destruct (C127_sizes A B HA HB) as (a' & b' & u' & i' & d' & x' & nu & ni & nd & nx & A' & B' & U' & I' & D' & _ & ZU & ZI & ZD & _ & E1 & E2 & _).
  assert (a' = a) by congruence. assert (b' = b) by congruence. assert (u' = u) by congruence. assert (i' = i) by congruence. assert (d' = d) by congruence. subst.
  assert (K : size d = Ok 0 <-> (forall c, is_cp c -> contains A c = Ok true -> contains B c = Ok true)).
  { pose proof (mem_set A HA) as MA. pose proof (mem_set B HB) as MB. destruct (C03_difference A B _ _ HA HB MA MB) as [_ (d' & D2 & BD & SD)]. assert (d' = d) by congruence. subst d'.
    destruct (size_lists d _ BD SD) as (l & [_ L] & ->). split.
    - intros Z c Hc Q. assert (l = []) by (destruct l as [|y l]; [reflexivity|injection Z as Z; cbn [length] in Z; lia]). subst l. rewrite (MA c Hc) in Q. rewrite (MB c Hc).
      f_equal. destruct (mem B c) eqn:X; [reflexivity|]. exfalso. apply (L c). split; [exact Hc|]. unfold s_diff. rewrite X. injection Q as ->. reflexivity.
    - intros H. destruct l as [|y l]; [reflexivity|]. exfalso. destruct (proj1 (L y) (or_introl eq_refl)) as [Hy Q]. unfold s_diff in Q. apply andb_true_iff in Q as [Q1 Q2].
      specialize (H y Hy). rewrite (MA y Hy), (MB y Hy), Q1 in H. specialize (H eq_refl). injection H as H. rewrite H in Q2. discriminate. }
  rewrite <- K, ZU, ZI, ZD. split; [tauto|]. split; (split; intros H; injection H as H; f_equal; lia).
Qed.
Print Assumptions C127_subset.
(** *** indexOf(c) is the number of members below c: the size of A & UnicodeSet(range(0, c)). *)
Theorem C127_index : forall A c k, built A -> is_cp c -> indexOf A c = Ok (Some k) -> exists i, intersection A (new_range 0 c) = Ok i /\ size i = Ok k.
Proof.
  intros A c k HA Hc E. pose proof (mem_set A HA) as SA. assert (HB : built (new_range 0 c)) by (unfold is_cp in Hc; apply b_range; lia).
  destruct (C02_intersection A (new_range 0 c) _ _ HA HB SA (mem_set _ HB)) as [_ (i & I & BI & SI)]. exists i. split; [exact I|].
  destruct (size_lists i _ BI SI) as (li & LI & ->). f_equal.
  destruct (iter_ok A HA) as (es & IT & S & _ & M). destruct (C13_indexOf A es c HA IT) as (r & R & K). assert (r = Some k) by congruence. subst r. destruct (proj1 (K k) eq_refl) as [K0 N].
  apply nth_error_split in N as (l1 & l2 & -> & L). assert (LL : lists l1 (s_inter (mem A) (mem (new_range 0 c)))).
  { assert (T : StronglySorted Z.lt l1 /\ (forall x, In x l1 -> x < c) /\ (forall x, In x l2 -> c < x)).
    { clear - S. induction l1 as [|y l1 IH]; cbn [app] in S; apply StronglySorted_inv in S as [S F].
      - split; [constructor|]. split; [intros x []|]. rewrite Forall_forall in F. exact F.
      - destruct (IH S) as (P & Q & W). rewrite Forall_forall in F. split; [constructor; [exact P|]; apply Forall_forall; intros x X; apply F, in_or_app; left; exact X|]. split; [|exact W].
        intros x [<-|X]; [apply F, in_or_app; right; left; reflexivity|apply Q, X]. }
    destruct T as (T & T1 & T2). split; [apply sorted_nodup, T|]. intros x. assert (MR : is_cp x -> mem (new_range 0 c) x = (x <? c)).
    { intros Hx. unfold mem. unfold is_cp in Hc. rewrite (proj1 (proj2 (proj2 C19_constructors)) 0 c ltac:(lia) ltac:(lia) x Hx). unfold s_span. unfold is_cp in Hx. lia. }
    unfold s_inter. split.
    - intros X. assert (IX : In x (l1 ++ c :: l2)) by (apply in_or_app; left; exact X). apply M in IX as [Hx Q]. split; [exact Hx|]. rewrite (MR Hx). unfold mem. rewrite Q. specialize (T1 x X). lia.
    - intros [Hx Q]. rewrite (MR Hx) in Q. apply andb_true_iff in Q as [Q Y]. assert (IX : In x (l1 ++ c :: l2)).
      { apply M. split; [exact Hx|]. rewrite (SA x Hx), Q. reflexivity. }
      apply in_app_or in IX as [IX|[IX|IX]]; [exact IX|lia|specialize (T2 x IX); lia]. }
  rewrite (lists_length _ _ _ LI LL). lia.
Qed.
Print Assumptions C127_index.
(** *** add makes a set larger by one, or leaves the size as it is. *)
Theorem C127_add : forall A c r a, built A -> is_cp c -> add A c = Ok r -> size A = Ok a -> (contains A c = Ok true -> size r = Ok a) /\ (contains A c = Ok false -> size r = Ok (a + 1)).
Proof.
  intros A c r a HA Hc E SZ. enough (G : size r = Ok (if mem A c then a else a + 1)) by (unfold mem in G; split; intros H; rewrite H in G; exact G). pose proof (mem_set A HA) as SA. destruct (add_ok A _ c HA SA Hc) as (r' & E' & BR & SR & _). assert (r' = r) by congruence. subst r'.
  destruct (size_lists A _ HA SA) as (la & LA & ZA), (size_lists r _ BR SR) as (lr & LR & ->). f_equal. assert (a = Z.of_nat (length la)) by congruence. subst a. destruct (mem A c) eqn:X.
  - rewrite (lists_length lr la (mem A)); [reflexivity| |exact LA]. refine (lists_ext _ _ _ _ LR).
    intros x Hx. unfold s_union, s_single. destruct (x =? c) eqn:Y; [|apply orb_false_r]. apply Z.eqb_eq in Y. subst x. rewrite X. reflexivity.
  - assert (L1 : lists [c] (s_single c)). { split; [constructor; [intros []|constructor]|]. intros x. unfold s_single. cbn [In]. split; [intros [<-|[]]; split; [exact Hc|apply Z.eqb_refl]|]. intros [_ Q]. left. lia. }
    rewrite (parts _ _ _ _ _ _ LA L1 LR); [cbn [length]; lia| |]; intros x Hx; unfold s_union, s_single; [reflexivity|]. destruct (x =? c) eqn:Y; [|apply andb_false_r]. apply Z.eqb_eq in Y. subst x. rewrite X. reflexivity.
Qed.
Print Assumptions C127_add.
Example C127_case : size sampleA = Ok 132 /\ (exists u, union sampleA sampleB = Ok u /\ exists i, intersection sampleA sampleB = Ok i /\ exists n m b, size u = Ok n /\ size i = Ok m /\ size sampleB = Ok b /\ n + m = 132 + b) /\
  indexOf sampleA 98 = Ok (Some 27) /\ (let* i := intersection sampleA (new_range 0 98) in size i) = Ok 27.
Proof. split; [vm_compute; reflexivity|]. split; [|split; vm_compute; reflexivity]. do 2 (eexists; split; [vm_compute; reflexivity|]). do 3 eexists. repeat split; vm_compute; reflexivity. Qed.
