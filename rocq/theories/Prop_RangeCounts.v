(** * C131: how many ranges a set needs *)
From Coq Require Import ZArith List Bool Lia ZifyBool.
From Verif Require Import Py UnicodeSet SpecSet UnicodeSetFacts UnicodeSetViews UnicodeSetReach UnicodeSetLaws Prop_UnicodeSet Prop_Collect Prop_Rebuild Prop_Counting.
Import ListNotations.
Open Scope Z_scope.

(** A run of consecutive code points of the set begins at [a], or has just ended in front of [a]. *)
Definition begins (A : uset) (a : Z) : Prop := is_cp a /\ contains A a = Ok true /\ (a = 0 \/ contains A (a - 1) = Ok false).
Definition ended (A : uset) (a : Z) : Prop := is_cp a /\ contains A a = Ok false /\ a <> 0 /\ contains A (a - 1) = Ok true.

Lemma says A c : built A -> is_cp c -> contains A c = Ok true \/ contains A c = Ok false.
Proof. intros B H. rewrite (mem_set A B c H). destruct (mem A c); auto. Qed.
Lemma ranges_cps A rs a b : built A -> getRanges A = Ok rs -> In (a, b) rs -> 0 <= a <= b /\ b <= 0x110000.
Proof. intros B R I. rewrite getRanges_pairs in R. injection R as <-. destruct (built_WF A B) as (S & F & _). exact (pairs_in A S F a b I). Qed.
Lemma begins_in A rs a : built A -> getRanges A = Ok rs -> begins A a -> In a (map fst rs).
Proof.
  intros B R (Ha & C & N). destruct (C14_ranges A B) as (rs' & R' & _ & _ & M & _). assert (rs' = rs) by congruence. subst rs'.
  destruct (proj1 (M a Ha) C) as (x & y & I & L). destruct (Z.eq_dec x a) as [->|Q]; [exact (in_map fst rs (a, y) I)|].
  exfalso. pose proof (ranges_cps A rs x y B R I) as X. destruct N as [->|N]; [lia|].
  assert (contains A (a - 1) = Ok true) by (apply M; [unfold is_cp in *; lia|exists x, y; split; [exact I|lia]]). congruence.
Qed.
Lemma ended_in A rs a : built A -> getRanges A = Ok rs -> ended A a -> In a (map snd rs).
Proof.
  intros B R (Ha & C & N & P). destruct (C14_ranges A B) as (rs' & R' & _ & _ & M & _). assert (rs' = rs) by congruence. subst rs'.
  assert (Hb : is_cp (a - 1)) by (unfold is_cp in *; lia). destruct (proj1 (M _ Hb) P) as (x & y & I & L). destruct (Z.eq_dec y a) as [->|Q]; [exact (in_map snd rs (x, a) I)|].
  exfalso. assert (contains A a = Ok true) by (apply (M a Ha); exists x, y; split; [exact I|lia]). congruence.
Qed.
Lemma apart_starts rs : forall lo, apart lo rs -> NoDup (map fst rs) /\ (forall a b, In (a, b) rs -> lo < a < b /\ forall x y, In (x, y) rs -> x <= a - 1 < y -> False).
Proof.
  induction rs as [|[u v] rs IH]; intros lo H; [split; [constructor|intros a b []]|]. cbn [apart] in H. destruct H as (H1 & H2 & H3). destruct (IH v H3) as [N K]. split.
  - cbn [map fst]. constructor; [|exact N]. intros I. apply in_map_iff in I as ([a b] & E & I). cbn [fst] in E. subst a. specialize (proj1 (K u b I)). lia.
  - intros a b [E|I].
    + injection E as <- <-. split; [lia|]. intros x y [E|I] L; [injection E as <- <-; lia|]. specialize (proj1 (K x y I)). lia.
    + split; [specialize (proj1 (K a b I)); lia|]. intros x y [E|J] L; [injection E as <- <-; specialize (proj1 (K a b I)); lia|]. exact (proj2 (K a b I) x y J L).
Qed.
(** *** In the set made by adding the ranges to an empty one, there is one range for each run. *)
Theorem C131_runs : forall A, built A -> exists l rs, rebuild A = Ok l /\ getRanges l = Ok rs /\ getRangeCount l = Z.of_nat (length rs) /\
  NoDup (map fst rs) /\ forall a, In a (map fst rs) <-> begins A a.
Proof.
  intros A B. destruct (C125_rebuild A B) as (l & E & C & K & _). pose proof (clean_built l C) as Bl. destruct (C14_ranges l Bl) as (rs & R & N & _ & M & _).
  destruct (C125_ranges A B) as (l' & rs' & E' & R' & Ap). assert (l' = l) by congruence. subst l'. assert (rs' = rs) by congruence. subst rs'. destruct (apart_starts rs (-1) Ap) as [D P].
  exists l, rs. split; [exact E|]. split; [exact R|]. split; [exact N|]. split; [exact D|]. intros a. split.
  - intros I. apply in_map_iff in I as ([x b] & Q & I). cbn [fst] in Q. subst x. destruct (P a b I) as [L S]. pose proof (ranges_cps l rs a b Bl R I) as X.
    assert (Ha : is_cp a) by (unfold is_cp; lia). split; [exact Ha|]. rewrite <- K by exact Ha. split; [apply (M a Ha); exists a, b; split; [exact I|lia]|].
    destruct (Z.eq_dec a 0) as [Z|Z]; [left; exact Z|right]. assert (Hb : is_cp (a - 1)) by (unfold is_cp in *; lia). rewrite <- K by exact Hb.
    destruct (says l (a - 1) Bl Hb) as [T|T]; [|exact T]. apply (M _ Hb) in T. destruct T as (x & y & J & T). exfalso. exact (S x y J T).
  - intros (Ha & C1 & C2). apply (begins_in l rs a Bl R). split; [exact Ha|]. rewrite K by exact Ha. split; [exact C1|].
    destruct (Z.eq_dec a 0) as [Z|Z]; [left; exact Z|right]. rewrite K by (unfold is_cp in *; lia). destruct C2 as [C2|C2]; [contradiction|exact C2].
Qed.
Print Assumptions C131_runs.
(** *** No set with the same code points has fewer ranges, however it was made. *)
Theorem C131_fewest : forall A B, built A -> built B -> (forall c, is_cp c -> contains A c = contains B c) ->
  exists l, rebuild A = Ok l /\ getRangeCount l <= getRangeCount B.
Proof.
  intros A B HA HB S. destruct (C131_runs A HA) as (l & rs & E & _ & N & D & M). exists l. split; [exact E|]. destruct (C14_ranges B HB) as (qs & Q & NB & _).
  rewrite N, NB. rewrite <- (map_length fst rs), <- (map_length fst qs). apply inj_le, (NoDup_incl_length D). intros a I. apply M in I as (Ha & C1 & C2). apply (begins_in B qs a HB Q).
  split; [exact Ha|]. rewrite <- S by exact Ha. split; [exact C1|]. destruct (Z.eq_dec a 0) as [Z|Z]; [left; exact Z|right]. rewrite <- S by (unfold is_cp in *; lia). destruct C2 as [C2|C2]; [contradiction|exact C2].
Qed.
Print Assumptions C131_fewest.
(** *** The set operations need no more ranges than both sets have together, the complement at most one more. *)
Theorem C131_operations : forall A B, built A -> built B -> exists u i d n u' i' d' n',
  union A B = Ok u /\ rebuild u = Ok u' /\ getRangeCount u' <= getRangeCount A + getRangeCount B /\
  intersection A B = Ok i /\ rebuild i = Ok i' /\ getRangeCount i' <= getRangeCount A + getRangeCount B /\
  difference A B = Ok d /\ rebuild d = Ok d' /\ getRangeCount d' <= getRangeCount A + getRangeCount B /\
  complement A = Ok n /\ rebuild n = Ok n' /\ getRangeCount n' <= getRangeCount A + 1.
Proof.
  intros A B HA HB. pose proof (mem_set A HA) as SA. pose proof (mem_set B HB) as SB.
  destruct (C01_union A B _ _ HA HB SA SB) as [_ (u & U & BU & SU)], (C02_intersection A B _ _ HA HB SA SB) as [_ (i & I & BI & SI)], (C03_difference A B _ _ HA HB SA SB) as [_ (d & D & BD & SD)],
    (C05_complement A _ HA SA) as (n & N & BN & SN & _).
  destruct (C131_runs u BU) as (u' & ru & U' & _ & NU & DU & MU), (C131_runs i BI) as (i' & ri & I' & _ & NI & DI & MI), (C131_runs d BD) as (d' & rd & D' & _ & ND & DD & MD), (C131_runs n BN) as (n' & rn & N' & _ & NN & DN & MN).
  destruct (C14_ranges A HA) as (ra & RA & CA & _), (C14_ranges B HB) as (rb & RB & CB & _).
  exists u, i, d, n, u', i', d', n'. rewrite NU, NI, ND, NN, CA, CB.
  assert (T : forall (A : uset) a, built A -> is_cp a -> a <> 0 -> contains A (a - 1) = Ok (mem A (a - 1))) by (intros X a HX Ha Z; apply (mem_set X HX); unfold is_cp in *; lia).
  assert (P : forall a, is_cp a -> a <> 0 -> is_cp (a - 1)) by (intros a Ha Z; unfold is_cp in *; lia).
  split; [exact U|]. split; [exact U'|]. split.
  { rewrite <- (map_length fst ru), <- (map_length fst ra), <- (map_length fst rb), <- Nat2Z.inj_add, <- app_length. apply inj_le, (NoDup_incl_length DU). intros a J. apply MU in J as (Ha & C1 & C2). apply in_or_app.
    rewrite (SU a Ha) in C1. unfold s_union in *. destruct (mem A a) eqn:EA; [left; apply (begins_in A ra a HA RA)|right; cbn [orb] in C1; apply (begins_in B rb a HB RB)].
    all: (split; [exact Ha|]; split; [rewrite ?SA, ?SB by exact Ha; congruence|]; destruct (Z.eq_dec a 0) as [Z|Z]; [left; exact Z|right]; rewrite T by assumption; destruct C2 as [C2|C2]; [contradiction|];
      rewrite (SU _ (P a Ha Z)) in C2; destruct (mem A (a - 1)), (mem B (a - 1)); cbn [orb] in C2; congruence). }
  split; [exact I|]. split; [exact I'|]. split.
  { rewrite <- (map_length fst ri), <- (map_length fst ra), <- (map_length fst rb), <- Nat2Z.inj_add, <- app_length. apply inj_le, (NoDup_incl_length DI). intros a J. apply MI in J as (Ha & C1 & C2). apply in_or_app.
    rewrite (SI a Ha) in C1. unfold s_inter in *. destruct (mem A a) eqn:EA; [cbn [andb] in C1|discriminate].
    destruct (Z.eq_dec a 0) as [Z|Z]; [left; apply (begins_in A ra a HA RA); split; [exact Ha|]; split; [rewrite SA by exact Ha; congruence|left; exact Z]|].
    destruct C2 as [C2|C2]; [contradiction|]. rewrite (SI _ (P a Ha Z)) in C2. destruct (mem A (a - 1)) eqn:EA1.
    - right. apply (begins_in B rb a HB RB). split; [exact Ha|]. split; [rewrite SB by exact Ha; exact C1|right; rewrite T by assumption; exact C2].
    - left. apply (begins_in A ra a HA RA). split; [exact Ha|]. split; [rewrite SA by exact Ha; congruence|right; rewrite T by assumption; congruence]. }
  split; [exact D|]. split; [exact D'|]. split.
  { rewrite <- (map_length fst rd), <- (map_length fst ra), <- (map_length snd rb), <- Nat2Z.inj_add, <- app_length. apply inj_le, (NoDup_incl_length DD). intros a J. apply MD in J as (Ha & C1 & C2). apply in_or_app.
    rewrite (SD a Ha) in C1. unfold s_diff in *. destruct (mem A a) eqn:EA; [cbn [andb] in C1|discriminate]. destruct (mem B a) eqn:EB; [discriminate|].
    destruct (Z.eq_dec a 0) as [Z|Z]; [left; apply (begins_in A ra a HA RA); split; [exact Ha|]; split; [rewrite SA by exact Ha; congruence|left; exact Z]|].
    destruct C2 as [C2|C2]; [contradiction|]. rewrite (SD _ (P a Ha Z)) in C2. destruct (mem A (a - 1)) eqn:EA1.
    - right. apply (ended_in B rb a HB RB). split; [exact Ha|]. split; [rewrite SB by exact Ha; congruence|]. split; [exact Z|]. rewrite T by assumption. destruct (mem B (a - 1)); [reflexivity|discriminate].
    - left. apply (begins_in A ra a HA RA). split; [exact Ha|]. split; [rewrite SA by exact Ha; congruence|right; rewrite T by assumption; congruence]. }
  split; [exact N|]. split; [exact N'|].
  rewrite <- (map_length fst rn), <- (map_length snd ra). change 1 with (Z.of_nat (length [0])). rewrite <- Nat2Z.inj_add, <- app_length. apply inj_le, (NoDup_incl_length DN). intros a J. apply MN in J as (Ha & C1 & C2). apply in_or_app.
  rewrite (SN a Ha) in C1. unfold s_compl in *. destruct (Z.eq_dec a 0) as [Z|Z]; [right; left; symmetry; exact Z|left]. destruct C2 as [C2|C2]; [contradiction|]. rewrite (SN _ (P a Ha Z)) in C2.
  apply (ended_in A ra a HA RA). split; [exact Ha|]. split; [rewrite SA by exact Ha; destruct (mem A a); [discriminate|reflexivity]|]. split; [exact Z|]. rewrite T by assumption. destruct (mem A (a - 1)); [reflexivity|discriminate].
Qed.
Print Assumptions C131_operations.
Example C131_case : (let* u := union (new_range 1 5) [2; 3; 5; 7; 0x110000] in let* l := rebuild u in Ok (getRangeCount u, getRangeCount l)) = Ok (2, 1) /\
  (let* d := difference (new_range 1 50) [2; 3; 5; 7; 0x110000] in let* l := rebuild d in Ok (getRangeCount l)) = Ok 3 /\ begins [2; 3; 5; 7; 0x110000] 5 /\ ended [2; 3; 5; 7; 0x110000] 7.
Proof. unfold begins, ended, is_cp. repeat split; try lia; try (vm_compute; reflexivity). right. vm_compute. reflexivity. Qed.
