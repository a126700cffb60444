(** * Sets reachable through the API, and what their membership answers are. *)
From Coq Require Import ZArith List Bool Lia Sorted ZifyBool.
From Verif Require Import Py UnicodeSet UnicodeSetFacts UnicodeSetMerge UnicodeSetUnion UnicodeSetOps UnicodeSetViews SpecSet UnicodeSetHeap.
Import ListNotations.
Open Scope Z_scope.

(** [built l]: [l] is the state of a set made by constructors and mutators called
    with code points and legal ranges, in any order and number. *)
Inductive built : uset -> Prop :=
| b_new : built new_empty
| b_int x : is_cp x -> built (new_int x)
| b_range a b : 0 <= a <= b -> b <= 0x110000 -> built (new_range a b)
| b_copy l : built l -> built (new_copy l)
| b_add l x r : built l -> is_cp x -> add l x = Ok r -> built r
| b_addRange l a b r v : built l -> is_cp a -> is_cp b -> addRange l a b = Ok (r, v) -> built r
| b_addAll l m r : built l -> built m -> addAll l m = Ok r -> built r
| b_removeRange l a b r : built l -> is_cp a -> is_cp b -> removeRange l a b = Ok r -> built r
| b_removeAll l m r : built l -> built m -> removeAll l m = Ok r -> built r
| b_retainRange l a b r : built l -> is_cp a -> is_cp b -> retainRange l a b = Ok r -> built r
| b_retainAll l m r : built l -> built m -> retainAll l m = Ok r -> built r
| b_complementRange l a b r : built l -> is_cp a -> is_cp b -> complementRange l a b = Ok r -> built r
| b_complement l r : built l -> complement l = Ok r -> built r
| b_complementAll l m r : built l -> built m -> complementAll l m = Ok r -> built r
| b_clear l : built l -> built (clear l).

(** The same, without [addAll]/[union] and without the constructor arguments that
    make a degenerate list: U+10FFFF alone, an empty range or a range reaching
    U+10FFFF. *)
Inductive clean : uset -> Prop :=
| c_new : clean new_empty
| c_int x : is_cp x -> x < 0x10FFFF -> clean (new_int x)
| c_range a b : 0 <= a < b -> b < 0x110000 -> clean (new_range a b)
| c_copy l : clean l -> clean (new_copy l)
| c_add l x r : clean l -> is_cp x -> add l x = Ok r -> clean r
| c_addRange l a b r v : clean l -> is_cp a -> is_cp b -> addRange l a b = Ok (r, v) -> clean r
| c_removeRange l a b r : clean l -> is_cp a -> is_cp b -> removeRange l a b = Ok r -> clean r
| c_removeAll l m r : clean l -> clean m -> removeAll l m = Ok r -> clean r
| c_retainRange l a b r : clean l -> is_cp a -> is_cp b -> retainRange l a b = Ok r -> clean r
| c_retainAll l m r : clean l -> clean m -> retainAll l m = Ok r -> clean r
| c_complementRange l a b r : clean l -> is_cp a -> is_cp b -> complementRange l a b = Ok r -> clean r
| c_complement l r : clean l -> complement l = Ok r -> clean r
| c_complementAll l m r : clean l -> clean m -> complementAll l m = Ok r -> clean r
| c_clear l : clean l -> clean (clear l).

(** Observable membership: what [contains] answers on every code point. *)
Definition is_set (l : uset) (s : cpset) : Prop := forall c, is_cp c -> contains l c = Ok (s c).

Lemma HIGH_eq : HIGH = 0x110000. Proof. reflexivity. Qed.
Ltac cps := unfold is_cp, legal_range in *; rewrite ?HIGH_eq in *.

Lemma WF_empty : WF [HIGH].
Proof. apply WF_intro; [repeat constructor|repeat constructor; unfold HIGH; lia|exists []; auto]. Qed.

Lemma range_noop a b : is_cp a -> is_cp b -> (pin a <? pin b) = (a <? b).
Proof. intros. rewrite !pin_id by (cps; lia). reflexivity. Qed.

Lemma addRange_cases l a b : is_cp a -> is_cp b -> b < a -> addRange l a b = Ok (l, RSelf).
Proof.
  intros. unfold addRange. rewrite range_noop by auto.
  destruct (a <? b) eqn:E; [lia|]. destruct (a =? b) eqn:E2; [lia|reflexivity].
Qed.

Lemma built_WF l : built l -> WF l.
Proof.
  induction 1; auto.
  - apply WF_empty.
  - apply new_int_spec; cps; lia.
  - apply new_range_spec; cps; lia.
  - destruct (add_spec l x IHbuilt ltac:(cps; lia)) as (? & E & ? & _). congruence.
  - destruct (Z_lt_le_dec b a).
    + rewrite addRange_cases in H2 by auto. congruence.
    + destruct (addRange_spec l a b IHbuilt ltac:(cps; lia)) as (? & ? & E & ? & _). congruence.
  - destruct (addList_spec l m IHbuilt1 IHbuilt2) as (? & E & ? & _). unfold addAll in *. congruence.
  - destruct (Z_lt_le_dec a b).
    + destruct (removeRange_spec l a b IHbuilt ltac:(cps; lia) ltac:(lia)) as (? & E & ? & _). congruence.
    + unfold removeRange in H2. rewrite range_noop in H2 by auto. destruct (a <? b) eqn:E; [lia|congruence].
  - destruct (retainList_spec l m true IHbuilt1 IHbuilt2) as (? & E & ? & _). unfold removeAll in *.
    change (pol false true) with 2 in E. congruence.
  - destruct (Z_lt_le_dec a b).
    + destruct (retainRange_spec l a b IHbuilt ltac:(cps; lia) ltac:(lia)) as (? & E & ? & _). congruence.
    + unfold retainRange in H2. rewrite range_noop in H2 by auto. destruct (a <? b) eqn:E; [lia|congruence].
  - destruct (retainList_spec l m false IHbuilt1 IHbuilt2) as (? & E & ? & _). unfold retainAll in *.
    change (pol false false) with 0 in E. congruence.
  - destruct (Z_lt_le_dec a b).
    + destruct (complementRange_spec l a b IHbuilt ltac:(cps; lia) ltac:(lia)) as (? & E & ? & _). congruence.
    + unfold complementRange in H2. rewrite range_noop in H2 by auto. destruct (a <? b) eqn:E; [lia|congruence].
  - destruct (complement_spec l IHbuilt) as (? & E & ? & _). congruence.
  - destruct (exclusiveOrList_spec l m IHbuilt1 IHbuilt2) as (? & E & ? & _). unfold complementAll in *. congruence.
  - apply WF_empty.
Qed.

Lemma clean_built l : clean l -> built l.
Proof. induction 1; eauto using built; econstructor; eauto; cps; lia. Qed.

Lemma strict_slt l : WF l -> strict l -> StronglySorted slt l.
Proof. intros W S. apply ss_lt_slt; auto. Qed.

Lemma clean_Canon l : clean l -> Canon l.
Proof.
  intros H. split; [apply built_WF, clean_built; auto|].
  induction H; auto; repeat match goal with K : clean ?l |- _ => pose proof (built_WF _ (clean_built _ K)); clear K end.
  - repeat constructor.
  - unfold new_int. repeat constructor; unfold HIGH; lia.
  - unfold new_range. repeat constructor; unfold HIGH; lia.
  - eapply add_strict; eauto; cps; lia.
  - destruct (Z_lt_le_dec b a).
    + rewrite addRange_cases in * by auto. congruence.
    + destruct (addRange_spec l a b) as (? & ? & E & ? & ? & _); auto; [cps; lia|]. assert (x = r) by congruence. subst; auto.
  - destruct (Z_lt_le_dec a b).
    + destruct (removeRange_spec l a b) as (? & E & ? & ? & _); auto; [cps; lia|]. assert (x = r) by congruence. subst; auto.
    + unfold removeRange in *. rewrite range_noop in * by auto. destruct (a <? b) eqn:E; [lia|congruence].
  - destruct (retainList_spec l m true) as (? & E & ? & S & _); auto. unfold removeAll in *.
    change (pol false true) with 2 in E. assert (x = r) by congruence. subst.
    apply S; apply strict_slt; auto.
  - destruct (Z_lt_le_dec a b).
    + destruct (retainRange_spec l a b) as (? & E & ? & ? & _); auto; [cps; lia|]. assert (x = r) by congruence. subst; auto.
    + unfold retainRange in *. rewrite range_noop in * by auto. destruct (a <? b) eqn:E; [lia|congruence].
  - destruct (retainList_spec l m false) as (? & E & ? & S & _); auto. unfold retainAll in *.
    change (pol false false) with 0 in E. assert (x = r) by congruence. subst.
    apply S; apply strict_slt; auto.
  - destruct (Z_lt_le_dec a b).
    + destruct (complementRange_spec l a b) as (? & E & ? & ? & _); auto; [cps; lia|]. assert (x = r) by congruence. subst; auto.
    + unfold complementRange in *. rewrite range_noop in * by auto. destruct (a <? b) eqn:E; [lia|congruence].
  - destruct (complement_spec l) as (? & E & ? & ? & _); auto. assert (x = r) by congruence. subst; auto.
  - destruct (exclusiveOrList_spec l m) as (? & E & ? & S & _); auto. unfold complementAll in *.
    assert (x = r) by congruence. subst.
    apply S; apply strict_slt; auto.
  - repeat constructor.
Qed.

Lemma is_set_denotes l s : built l -> is_set l s -> denotes l s.
Proof.
  intros B I. apply built_WF in B. split; auto. intros c Hc.
  specialize (I c ltac:(cps; lia)). rewrite contains_par in I by (auto; lia). congruence.
Qed.

Lemma denotes_is_set l s : denotes l s -> is_set l s.
Proof. intros [W P] c Hc. rewrite contains_par by (auto; cps; lia). rewrite P by (cps; lia). reflexivity. Qed.

Lemma built_is_set l : built l -> exists s, is_set l s.
Proof. intros B. exists (par l). apply denotes_is_set. split; auto using built_WF. Qed.
