(** * C130: the last change that concerns a code point decides whether it is in the set *)
From Coq Require Import ZArith List Bool Lia ZifyBool.
From Verif Require Import Py UnicodeSet SpecSet UnicodeSetFacts UnicodeSetReach UnicodeSetLaws Prop_UnicodeSet Prop_SetExact Prop_Counting.
Import ListNotations.
Open Scope Z_scope.

(** The calls a program makes on one set, with integers or with other sets. *)
Inductive change : Type :=
| CAdd (c : Z) | CAddRange (a b : Z) | CRemoveRange (a b : Z) | CAddAll (B : uset) | CRemoveAll (B : uset).
Definition change_do (k : change) (A : uset) : res uset :=
  match k with
  | CAdd c => add A c
  | CAddRange a b => let* r := addRange A a b in Ok (fst r)
  | CRemoveRange a b => removeRange A a b
  | CAddAll B => addAll A B
  | CRemoveAll B => removeAll A B
  end.
Fixpoint changes (ks : list change) (A : uset) : res uset :=
  match ks with [] => Ok A | k :: ks => let* A := change_do k A in changes ks A end.
Definition change_ok (k : change) : Prop :=
  match k with
  | CAdd c => is_cp c
  | CAddRange a b => is_cp a /\ is_cp b /\ a <= b
  | CRemoveRange a b => is_cp a /\ is_cp b
  | CAddAll B | CRemoveAll B => built B
  end.
(** What a call says about a code point.  [removeRange(c, c)] says nothing (C08). *)
Definition puts_in (k : change) (c : Z) : Prop :=
  match k with
  | CAdd x => c = x
  | CAddRange a b => a <= c <= b
  | CAddAll B => contains B c = Ok true
  | _ => False
  end.
Definition takes_out (k : change) (c : Z) : Prop :=
  match k with
  | CRemoveRange a b => a < b /\ a <= c <= b
  | CRemoveAll B => contains B c = Ok true
  | _ => False
  end.

Lemma change_step k A : change_ok k -> built A -> exists r, change_do k A = Ok r /\ built r /\
  forall c, is_cp c -> exists x, contains r c = Ok x /\ (x = true <-> puts_in k c \/ (contains A c = Ok true /\ ~ takes_out k c)).
Proof.
  intros K B. pose proof (mem_set A B) as I. destruct k as [x|a b|a b|D|D]; cbn [change_ok change_do puts_in takes_out] in *.
  - destruct (C06_add A _ x B I K) as (r & E & Br & Ir & _). exists r. split; [exact E|]. split; [exact Br|]. intros c Hc. eexists. split; [exact (Ir c Hc)|].
    rewrite (I c Hc). unfold s_union, s_single. destruct (mem A c); destruct (c =? x) eqn:Q; cbn [orb]; intuition (try lia; try discriminate).
  - destruct K as (Ha & Hb & L). destruct (C07_addRange A _ a b B I Ha Hb L) as (r & v & E & Br & Ir). exists r. rewrite E. split; [reflexivity|]. split; [exact Br|]. intros c Hc. eexists. split; [exact (Ir c Hc)|].
    rewrite (I c Hc). unfold s_union, s_span. destruct (mem A c); destruct ((a <=? c) && (c <=? b)) eqn:Q; cbn [orb]; intuition (try lia; try discriminate).
  - destruct K as (Ha & Hb). destruct (Z.lt_ge_cases a b) as [L|L].
    + destruct (proj1 (removeRange_ok A _ a b B I Ha Hb) L) as (r & E & Br & Ir). exists r. split; [exact E|]. split; [exact Br|]. intros c Hc. eexists. split; [exact (Ir c Hc)|].
      rewrite (I c Hc). unfold s_diff, s_span. destruct (mem A c); destruct ((a <=? c) && (c <=? b)) eqn:Q; cbn [andb negb]; intuition (try lia; try discriminate).
    + destruct (C08_exact A _ a b B I Ha Hb) as (r & _ & _ & E & _). assert (r = A) as ->.
      { revert E. destruct (Z.eq_dec a b) as [->|N]; [intros E|intros E; pose proof (proj2 (removeRange_ok A _ a b B I Ha Hb) ltac:(lia)) as E'; congruence].
        pose proof (proj1 (C09_single_never_changes_anything A b)) as E'. unfold remove in E'. congruence. }
      exists A. split; [exact E|]. split; [exact B|]. intros c Hc. eexists. split; [exact (I c Hc)|]. rewrite (I c Hc). destruct (mem A c); intuition (try lia; try discriminate).
  - destruct (C01_union A D _ _ B K I (mem_set D K)) as [(r & E & Br & Ir) _]. exists r. split; [exact E|]. split; [exact Br|]. intros c Hc. eexists. split; [exact (Ir c Hc)|].
    rewrite (I c Hc), (mem_set D K c Hc). unfold s_union. destruct (mem A c), (mem D c); cbn [orb]; intuition discriminate.
  - destruct (C03_difference A D _ _ B K I (mem_set D K)) as [(r & E & Br & Ir) _]. exists r. split; [exact E|]. split; [exact Br|]. intros c Hc. eexists. split; [exact (Ir c Hc)|].
    rewrite (I c Hc), (mem_set D K c Hc). unfold s_diff. destruct (mem A c), (mem D c); cbn [andb negb]; intuition (try discriminate; try congruence).
Qed.
Lemma changes_app ks ks' A : changes (ks ++ ks') A = let* r := changes ks A in changes ks' r.
Proof.
  revert A. induction ks as [|k ks IH]; intros A; [reflexivity|]. cbn [app changes]. destruct (change_do k A); cbn [bind]; [apply IH|reflexivity].
Qed.
(** *** No call fails, and a code point is in the set afterwards exactly when the last call that says something about
    it puts it in, or it was in the set and no call says anything about it. *)
Theorem C130_last : forall ks A, Forall change_ok ks -> built A -> exists r, changes ks A = Ok r /\ built r /\
  forall c, is_cp c -> exists x, contains r c = Ok x /\
    (x = true <-> (exists before k after, ks = before ++ k :: after /\ puts_in k c /\ Forall (fun k => ~ takes_out k c) after) \/
                  (contains A c = Ok true /\ Forall (fun k => ~ takes_out k c) ks)).
Proof.
  intros ks A F. revert A. induction F as [|k ks K F IH]; intros A B.
  - exists A. split; [reflexivity|]. split; [exact B|]. intros c Hc. exists (mem A c). split; [exact (mem_set A B c Hc)|]. rewrite (mem_set A B c Hc). split.
    + intros ->. right. split; [reflexivity|constructor].
    + intros [(p & k & q & Q & _)|[Q _]]; [destruct p; discriminate|congruence].
  - destruct (change_step k A K B) as (r & E & Br & S). destruct (IH r Br) as (r' & E' & Br' & S'). exists r'. cbn [changes]. rewrite E. cbn [bind]. split; [exact E'|]. split; [exact Br'|].
    intros c Hc. destruct (S c Hc) as (x & X & Hx), (S' c Hc) as (y & Y & Hy). exists y. split; [exact Y|]. rewrite Hy. rewrite X. split.
    + intros [(p & k' & q & -> & P & N)|[T N]].
      * left. exists (k :: p), k', q. auto.
      * injection T as T. apply Hx in T. destruct T as [T|[T M]]; [left; exists [], k, ks; auto|right; auto].
    + intros [(p & k' & q & Q & P & N)|[T N]].
      * destruct p as [|k0 p]; cbn [app] in Q; injection Q as <- ->.
        -- right. split; [f_equal; apply Hx; left; exact P|exact N].
        -- left. exists p, k', q. auto.
      * inversion N as [|? ? N1 N2]; subst. right. split; [f_equal; apply Hx; right; auto|exact N2].
Qed.
Print Assumptions C130_last.
(** *** Undoing: what a range adds can be taken out again if none of it was in the set, and what was taken out can be
    put back if all of it was. *)
Theorem C130_undo : forall A a b, built A -> is_cp a -> is_cp b -> a < b ->
  ((forall c, a <= c <= b -> contains A c = Ok false) -> exists r, changes [CAddRange a b; CRemoveRange a b] A = Ok r /\ forall c, is_cp c -> contains r c = contains A c) /\
  ((forall c, a <= c <= b -> contains A c = Ok true) -> exists r, changes [CRemoveRange a b; CAddRange a b] A = Ok r /\ forall c, is_cp c -> contains r c = contains A c).
Proof.
  intros A a b B Ha Hb L. assert (K1 : change_ok (CAddRange a b)) by (cbn; split; [exact Ha|split; [exact Hb|lia]]). assert (K2 : change_ok (CRemoveRange a b)) by (split; [exact Ha|exact Hb]).
  split; intros H; cbn [changes].
  - destruct (change_step _ A K1 B) as (r & -> & Br & S). cbn [bind]. destruct (change_step _ r K2 Br) as (r' & -> & _ & S'). cbn [bind]. exists r'. split; [reflexivity|]. intros c Hc.
    destruct (S c Hc) as (x & X & Hx), (S' c Hc) as (y & -> & Hy). cbn [puts_in takes_out] in *. rewrite X in Hy. rewrite (mem_set A B c Hc) in *. specialize (H c). rewrite (mem_set A B c Hc) in H. f_equal.
    destruct (Z_le_dec a c), (Z_le_dec c b); try specialize (H ltac:(lia)); destruct x, y, (mem A c); intuition (try lia; try discriminate; try congruence).
  - destruct (change_step _ A K2 B) as (r & -> & Br & S). cbn [bind]. destruct (change_step _ r K1 Br) as (r' & -> & _ & S'). cbn [bind]. exists r'. split; [reflexivity|]. intros c Hc.
    destruct (S c Hc) as (x & X & Hx), (S' c Hc) as (y & -> & Hy). cbn [puts_in takes_out] in *. rewrite X in Hy. rewrite (mem_set A B c Hc) in *. specialize (H c). rewrite (mem_set A B c Hc) in H. f_equal.
    destruct (Z_le_dec a c), (Z_le_dec c b); try specialize (H ltac:(lia)); destruct x, y, (mem A c); intuition (try lia; try discriminate; try congruence).
Qed.
Print Assumptions C130_undo.
(** *** Calls that say nothing about each other's code points can be made in either order. *)
Theorem C130_independent : forall k k' A, change_ok k -> change_ok k' -> built A ->
  (forall c, is_cp c -> ~ ((puts_in k c \/ takes_out k c) /\ (puts_in k' c \/ takes_out k' c))) ->
  exists r r', changes [k; k'] A = Ok r /\ changes [k'; k] A = Ok r' /\ forall c, is_cp c -> contains r c = contains r' c.
Proof.
  intros k k' A K K' B D. cbn [changes].
  destruct (change_step k A K B) as (r1 & -> & B1 & S1), (change_step k' A K' B) as (r2 & -> & B2 & S2). cbn [bind].
  destruct (change_step k' r1 K' B1) as (r3 & -> & _ & S3), (change_step k r2 K B2) as (r4 & -> & _ & S4). cbn [bind]. exists r3, r4. split; [reflexivity|]. split; [reflexivity|].
  intros c Hc. destruct (S1 c Hc) as (x1 & X1 & H1), (S2 c Hc) as (x2 & X2 & H2), (S3 c Hc) as (x3 & -> & H3), (S4 c Hc) as (x4 & -> & H4). rewrite X1 in H3. rewrite X2 in H4. specialize (D c Hc).
  assert (T : forall x, Ok x = Ok true <-> x = true) by (intros x; split; congruence). rewrite T in H3, H4. rewrite H1 in H3. rewrite H2 in H4.
  f_equal. apply eq_true_iff_eq. rewrite H3, H4. clear - D. destruct k, k'; cbn [puts_in takes_out] in *; tauto.
Qed.
Print Assumptions C130_independent.
Example C130_case : Forall change_ok [CAddRange 60 80; CRemoveRange 70 75; CAdd 72; CRemoveRange 90 90; CRemoveAll (new_int 61)] /\
  changes [CAddRange 60 80; CRemoveRange 70 75; CAdd 72; CRemoveRange 90 90; CRemoveAll (new_int 61)] sampleA = Ok [60; 61; 62; 70; 72; 73; 76; 91; 97; 123; 0x1F600; 0x1F650; 0x110000] /\
  changes [CAddRange 30 40; CRemoveRange 30 40] sampleA = Ok sampleA.
Proof.
  split; [|split; vm_compute; reflexivity]. repeat constructor; cbn [change_ok]; unfold is_cp; try lia.
Qed.
