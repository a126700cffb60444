(** * C125: adding the ranges of a set to an empty one *)
From Coq Require Import ZArith List Bool Lia ZifyBool Sorted.
From Verif Require Import Py UnicodeSet SpecSet UnicodeSetFacts UnicodeSetMerge UnicodeSetOps UnicodeSetViews UnicodeSetReach UnicodeSetLaws UnicodeSetUnion Prop_UnicodeSet Prop_Collect.
Import ListNotations.
Open Scope Z_scope.
Local Notation clean := UnicodeSetReach.clean.

(** [n = UnicodeSet()
for r in s.getRanges(): n.addRange(r.start, r.stop - 1)] *)
Definition rebuild (l : uset) : res uset :=
  let* rs := getRanges l in collect (fun _ : unit => true) (map (fun r => (r, tt)) rs) new_empty.

Lemma built_cp A c : built A -> is_cp c -> exists x, contains A c = Ok x.
Proof. intros B Hc. eexists. apply contains_par; [apply built_WF, B|unfold is_cp in Hc; unfold HIGH; lia]. Qed.
Lemma pairs_in l : sorted l -> Forall (fun x => 0 <= x <= HIGH) l -> forall a b, In (a, b) (pairs l) -> 0 <= a <= b /\ b <= HIGH.
Proof.
  intros S F. pose proof (pairs_ascending l 0 S ltac:(refine (Forall_impl _ _ F); intros x Hx; cbv beta in Hx; lia)) as A.
  assert (M : forall a b, In (a, b) (pairs l) -> In b l).
  { clear. induction l as [|x|x y l IH] using list_ind2; cbn [pairs]; [intros ? ? []|intros ? ? []|]. intros a b [E|I]; [injection E as <- <-; right; left; reflexivity|right; right; exact (IH a b I)]. }
  intros a b I. split; [|rewrite Forall_forall in F; apply F, (M a b), I]. clear M F S. revert A I. generalize (pairs l). intros rs. assert (L : 0 <= 0) by lia. revert L. generalize 0 at 2 3 as lo.
  induction rs as [|[x y] rs IH]; intros lo L A I; [destruct I|]. cbn [ascending] in A. destruct A as (A1 & A2 & A). destruct I as [E|I]; [injection E as <- <-; lia|]. apply (IH y); [lia|exact A|exact I].
Qed.
Lemma strict_apart l : forall lo, strict l -> Forall (fun x => lo < x) l -> apart lo (pairs l).
Proof.
  induction l as [|x|x y l IH] using list_ind2; intros lo S F; cbn [pairs apart]; [constructor|constructor|].
  apply StronglySorted_inv in S as [S SX]. pose proof S as S0. apply StronglySorted_inv in S as [S SY]. apply Forall_cons_iff in F as [F _]. apply Forall_cons_iff in SX as [SX _].
  split; [exact F|]. split; [exact SX|]. exact (IH y S SY).
Qed.
(** *** The new set has the same code points as the old one, and is built without union.  A set that is built
    in this way itself is equal to its copy. *)
Theorem C125_rebuild : forall A, built A -> exists l, rebuild A = Ok l /\ clean l /\ (forall c, is_cp c -> contains l c = contains A c) /\ (clean A -> l = A).
Proof.
  intros A B. destruct (ranges_ok A B) as (rs & R & _ & _ & M & _). pose proof (built_WF A B) as (S & F & _).
  assert (P : rs = pairs A) by (rewrite getRanges_pairs in R; congruence).
  destruct (C124_collect unit (fun _ => true) (map (fun r => (r, tt)) rs)) as (l & E & C & K).
  { intros a b v I. apply in_map_iff in I as ([x y] & Q & I). injection Q as -> -> _. rewrite P in I. exact (pairs_in A S F a b I). }
  assert (X : forall c, is_cp c -> contains l c = contains A c).
  { intros c Hc. destruct (K c Hc) as (x & Q & Y). destruct (built_cp A c B Hc) as (z & Z). specialize (M c Hc). rewrite Q. rewrite Z in *. f_equal.
    apply eq_true_iff_eq. rewrite Y. split.
    - intros (a & b & v & I & Rg & _). apply in_map_iff in I as ([a' b'] & W & I). injection W as -> -> _. assert (Ok z = Ok true) by (apply M; exists a, b; split; assumption). congruence.
    - intros ->. destruct (proj1 M eq_refl) as (a & b & I & Rg). exists a, b, tt. split; [apply (in_map (fun r => (r, tt)) rs (a, b) I)|]. split; [exact Rg|reflexivity]. }
  exists l. split; [unfold rebuild; rewrite R; exact E|]. split; [exact C|]. split; [exact X|]. intros CA. apply eq_sound, eq_clean; assumption.
Qed.
Print Assumptions C125_rebuild.
(** *** Two copies are equal exactly if the sets have the same code points, whatever way they were built;
    [==] on the sets themselves is wrong here (C11). *)
Theorem C125_equal : forall A B, built A -> built B -> exists l m, rebuild A = Ok l /\ rebuild B = Ok m /\
  (UnicodeSet.eq l m = true <-> forall c, is_cp c -> contains A c = contains B c).
Proof.
  intros A B HA HB. destruct (C125_rebuild A HA) as (l & L & CL & KL & _), (C125_rebuild B HB) as (m & M & CM & KM & _). exists l, m. split; [exact L|]. split; [exact M|].
  rewrite (eq_clean l m CL CM). split; intros H c Hc; specialize (H c Hc); rewrite KL, KM in * by exact Hc; exact H.
Qed.
Print Assumptions C125_equal.
(** *** Whether a range is contained is answered rightly by the copy; by the set itself it is not (C15). *)
Theorem C125_contains_range : forall A a b, built A -> is_cp a -> a < b -> b <= 0x110000 -> exists l r, rebuild A = Ok l /\ contains_range l a b = Ok r /\
  (r = true <-> forall c, a <= c < b -> contains A c = Ok true).
Proof.
  intros A a b B Ha L H. destruct (C125_rebuild A B) as (l & E & C & K & _). destruct (contains_range_ok l a b C Ha L H) as (r & R & Q). exists l, r. split; [exact E|]. split; [exact R|].
  rewrite Q. unfold is_cp in Ha. split; intros X c Hc; specialize (X c Hc); rewrite K in * by (unfold is_cp; lia); exact X.
Qed.
Print Assumptions C125_contains_range.
(** *** The ranges of the copy are not empty, and between two of them there is a code point that is in neither. *)
Theorem C125_ranges : forall A, built A -> exists l rs, rebuild A = Ok l /\ getRanges l = Ok rs /\ apart (-1) rs.
Proof.
  intros A B. destruct (C125_rebuild A B) as (l & E & C & _). exists l, (pairs l). split; [exact E|]. split; [apply getRanges_pairs|].
  destruct (clean_Canon l C) as [(_ & F & _) S]. apply strict_apart; [exact S|]. refine (Forall_impl _ _ F). intros x Hx. cbv beta in Hx. lia.
Qed.
Print Assumptions C125_ranges.
Example C125_case : union (new_range 1 5) [2; 3; 5; 7; 0x110000] = Ok [1; 5; 5; 7; 0x110000] /\ contains_range [1; 5; 5; 7; 0x110000] 4 6 = Ok false /\
  rebuild [1; 5; 5; 7; 0x110000] = Ok [1; 7; 0x110000] /\ contains_range [1; 7; 0x110000] 4 6 = Ok true /\ rebuild (new_range 1 7) = Ok (new_range 1 7) /\
  rebuild (new_range 3 3) = Ok new_empty /\ new_range 3 3 <> new_empty.
Proof. vm_compute. intuition discriminate. Qed.
