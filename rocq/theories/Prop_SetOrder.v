(** * C126: the order in which code points and ranges are added *)
From Coq Require Import ZArith List Bool Lia ZifyBool Sorted.
From Verif Require Import Py UnicodeSet SpecSet UnicodeSetFacts UnicodeSetReach UnicodeSetLaws Prop_Search Prop_Collect Prop_Rebuild.
Import ListNotations.
Open Scope Z_scope.
Local Notation clean := UnicodeSetReach.clean.

Lemma adds_from cs : Forall is_cp cs -> forall l s, clean l -> is_set l s ->
  exists r, adds l cs = Ok r /\ clean r /\ is_set r (s_union s (fun c => existsb (Z.eqb c) cs)).
Proof.
  induction cs as [|x cs IH]; intros H l s C S; unfold adds; cbn [fold_left bind].
  - exists l. split; [reflexivity|]. split; [exact C|]. intros c Hc. rewrite (S c Hc). unfold s_union. cbn [existsb]. rewrite orb_false_r. reflexivity.
  - apply Forall_cons_iff in H as [Hx H]. destruct (add_ok l s x (clean_built l C) S Hx) as (l1 & E & _ & S1 & _). rewrite E. fold (adds l1 cs).
    destruct (IH H l1 _ (c_add l x l1 C Hx E) S1) as (r & R & Cr & Sr). exists r. split; [exact R|]. split; [exact Cr|].
    intros c Hc. rewrite (Sr c Hc). unfold s_union, s_single. cbn [existsb]. rewrite orb_assoc. reflexivity.
Qed.
Lemma adds_in cs : Forall is_cp cs -> exists l, adds new_empty cs = Ok l /\ clean l /\ forall c, is_cp c -> (contains l c = Ok true <-> In c cs).
Proof.
  intros H. destruct (adds_from cs H new_empty s_empty c_new empty_set) as (l & E & C & S). exists l. split; [exact E|]. split; [exact C|]. intros c Hc. rewrite (S c Hc).
  unfold s_union, s_empty. cbn [orb]. split.
  - intros Q. assert (X : existsb (Z.eqb c) cs = true) by congruence. apply existsb_exists in X as (y & I & Y). apply Z.eqb_eq in Y. subst y. exact I.
  - intros I. f_equal. apply existsb_exists. exists c. split; [exact I|apply Z.eqb_refl].
Qed.
Lemma same_answers l m : clean l -> clean m -> (forall c, is_cp c -> (contains l c = Ok true <-> contains m c = Ok true)) -> l = m.
Proof.
  intros L M H. apply eq_sound, eq_clean; [exact L|exact M|]. intros c Hc. destruct (built_cp l c (clean_built l L) Hc) as (x & X), (built_cp m c (clean_built m M) Hc) as (y & Y). specialize (H c Hc). rewrite X, Y in *.
  destruct x, y; try reflexivity; [destruct H as [H _]; specialize (H eq_refl)|destruct H as [_ H]; specialize (H eq_refl)]; congruence.
Qed.
(** *** Code points that are added one by one come out of the iterator in increasing order and once each. *)
Theorem C126_sorted : forall cs, Forall is_cp cs -> exists l es, adds new_empty cs = Ok l /\ iter l = Ok es /\ StronglySorted Z.lt es /\ (forall c, In c es <-> In c cs) /\ size l = Ok (Z.of_nat (length es)).
Proof.
  intros cs H. destruct (adds_in cs H) as (l & E & C & K). destruct (iter_ok l (clean_built l C)) as (es & I & S & Z & M). exists l, es. split; [exact E|]. split; [exact I|]. split; [exact S|]. split; [|exact Z].
  intros c. rewrite M. split; [intros [Hc Q]; apply (K c Hc), Q|]. intros J. rewrite Forall_forall in H. specialize (H c J). split; [exact H|apply (K c H), J].
Qed.
Print Assumptions C126_sorted.
(** *** The set does not depend on the order, nor on how often a code point is added: the lists are the same. *)
Theorem C126_order : forall cs ds, Forall is_cp cs -> (forall c, In c cs <-> In c ds) -> adds new_empty cs = adds new_empty ds.
Proof.
  intros cs ds H S. assert (H' : Forall is_cp ds) by (rewrite Forall_forall in *; intros c I; apply H, S, I).
  destruct (adds_in cs H) as (l & -> & CL & KL), (adds_in ds H') as (m & -> & CM & KM). f_equal. apply same_answers; [exact CL|exact CM|]. intros c Hc. rewrite (KL c Hc), (KM c Hc). apply S.
Qed.
Print Assumptions C126_order.
(** *** The same for ranges, which may overlap. *)
Theorem C126_ranges : forall V W (keep : V -> bool) (keep' : W -> bool) rs rs',
  (forall a b v, In (a, b, v) rs -> 0 <= a <= b /\ b <= 0x110000) -> (forall a b v, In (a, b, v) rs' -> 0 <= a <= b /\ b <= 0x110000) ->
  (forall c, (exists a b v, In (a, b, v) rs /\ a <= c < b /\ keep v = true) <-> (exists a b v, In (a, b, v) rs' /\ a <= c < b /\ keep' v = true)) ->
  collect keep rs new_empty = collect keep' rs' new_empty.
Proof.
  intros V W keep keep' rs rs' H H' S. destruct (C124_collect V keep rs H) as (l & -> & CL & KL), (C124_collect W keep' rs' H') as (m & -> & CM & KM). f_equal.
  apply same_answers; [exact CL|exact CM|]. intros c Hc. destruct (KL c Hc) as (x & -> & X), (KM c Hc) as (y & -> & Y). specialize (S c).
  assert (E : x = true <-> y = true) by (rewrite X, Y; exact S). destruct x, y; [tauto|exfalso; specialize (proj1 E eq_refl); discriminate|exfalso; specialize (proj2 E eq_refl); discriminate|tauto].
Qed.
Print Assumptions C126_ranges.
(** *** Copying a set code point by code point gives the same list as copying it range by range (C125). *)
Theorem C126_copies : forall A es, built A -> iter A = Ok es -> adds new_empty es = rebuild A.
Proof.
  intros A es B I. destruct (iter_ok A B) as (es' & I' & _ & _ & M). assert (es' = es) by congruence. subst es'.
  assert (H : Forall is_cp es) by (rewrite Forall_forall; intros c J; apply M, J). destruct (adds_in es H) as (l & -> & CL & KL). destruct (C125_rebuild A B) as (m & -> & CM & KM & _). f_equal.
  apply same_answers; [exact CL|exact CM|]. intros c Hc. rewrite (KL c Hc), (KM c Hc), M. split; [intros [_ Q]; exact Q|intros Q; split; assumption].
Qed.
Print Assumptions C126_copies.
Example C126_case : adds new_empty [100; 7; 8; 0x10FFFF; 6; 7] = Ok [6; 9; 100; 101; 0x10FFFF; 0x110000] /\ adds new_empty [0x10FFFF; 6; 7; 8; 100] = Ok [6; 9; 100; 101; 0x10FFFF; 0x110000] /\
  iter [6; 9; 100; 101; 0x10FFFF; 0x110000] = Ok [6; 7; 8; 100; 0x10FFFF] /\
  collect (fun _ => true) [(5, 9, tt); (1, 3, tt); (2, 6, tt); (4, 4, tt)] new_empty = collect (fun _ => true) [(1, 9, tt)] new_empty.
Proof. vm_compute. repeat split; reflexivity. Qed.
