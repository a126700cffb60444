(** * The merge loops of UnicodeSet: intersection, difference, exclusive or. *)
From Coq Require Import ZArith List Bool Lia Sorted ZifyBool.
From Verif Require Import Py UnicodeSet UnicodeSetFacts.
Import ListNotations.
Open Scope Z_scope.

(** A merge loop for an arbitrary boolean operation [f]: an element is kept when
    the value of [f] changes there.  [_retainList] is [f = andb],
    [_exclusiveOrList] is [f = xorb]. *)
Section Merge.
Variable f : bool -> bool -> bool.

Definition keep (b : bool) (x : Z) (buf : list Z) := if b then x :: buf else buf.

Fixpoint merge (fuel : nat) (buf : list Z) (a : Z) (as_ : list Z) (b : Z) (bs : list Z)
  (pa pb : bool) : res (list Z) :=
  match fuel with
  | O => Err OutOfFuel
  | S k =>
      if a <? b then
        let* (a', as') := pop as_ in
        merge k (keep (xorb (f pa pb) (f (negb pa) pb)) a buf) a' as' b bs (negb pa) pb
      else if b <? a then
        let* (b', bs') := pop bs in
        merge k (keep (xorb (f pa pb) (f pa (negb pb))) b buf) a as_ b' bs' pa (negb pb)
      else if a =? HIGH then Ok buf
      else
        let* (a', as') := pop as_ in
        let* (b', bs') := pop bs in
        merge k (keep (xorb (f pa pb) (f (negb pa) (negb pb))) a buf) a' as' b' bs' (negb pa) (negb pb)
  end.

(** Strictly increasing up to a possible repetition of HIGH at the end. *)
Definition slt (x y : Z) := x < y \/ (x = HIGH /\ y = HIGH).

Definition okl (l : list Z) := sorted l /\ Forall (fun x => x <= HIGH) l /\ last l 0 = HIGH.

Lemma okl_tail x l : okl (x :: l) -> x <> HIGH ->
  exists y r, l = y :: r /\ okl (y :: r) /\ x <= y.
Proof.
  intros (S & B & L) H. destruct (last_cons_high _ _ L H) as [N L'].
  destruct l as [|y r]; [congruence|]. exists y, r.
  inversion S as [|? ? S1 F1]; inversion B; subst. inversion F1; subst.
  repeat split; auto.
Qed.

Definition val (pa : bool) (a : Z) (as_ : list Z) c := xorb pa (par (a :: as_) c).

Lemma val_low pa a as_ c : sorted (a :: as_) -> c < a -> val pa a as_ c = pa.
Proof.
  intros S H. unfold val. rewrite par_gt; [destruct pa; reflexivity|].
  inversion S; subst. constructor; auto. eapply Forall_impl; [|eassumption]. simpl; intros; lia.
Qed.

Lemma val_step pa a as_ a' as' c : as_ = a' :: as' -> a <= c ->
  val pa a as_ c = val (negb pa) a' as' c.
Proof.
  intros -> H. unfold val. cbn [par]. destruct (a <=? c) eqn:E; [|lia].
  destruct pa, (a' <=? c), (par as' c); reflexivity.
Qed.

Lemma keep_rev b x buf out : rev out ++ keep b x buf = rev ((if b then [x] else []) ++ out) ++ buf.
Proof. destruct b; simpl; [rewrite <- app_assoc|]; reflexivity. Qed.

Lemma merge_spec : forall fuel buf a as_ b bs pa pb,
  okl (a :: as_) -> okl (b :: bs) ->
  (length as_ + length bs < fuel)%nat ->
  exists out, merge fuel buf a as_ b bs pa pb = Ok (rev out ++ buf) /\
    Forall (fun x => Z.min a b <= x < HIGH) out /\ sorted out /\
    (StronglySorted slt (a :: as_) -> StronglySorted slt (b :: bs) -> StronglySorted Z.lt out) /\
    forall c, c < HIGH ->
      par out c = xorb (f pa pb) (f (val pa a as_ c) (val pb b bs c)).
Proof.
  induction fuel as [|k IH]; intros buf a as_ b bs pa pb OA OB Hf; [lia|].
  assert (Ha : a <= HIGH) by (destruct OA as (_ & B & _); inversion B; auto).
  assert (Hb : b <= HIGH) by (destruct OB as (_ & B & _); inversion B; auto).
  pose proof OA as (SA & _ & _). pose proof OB as (SB & _ & _).
  cbn [merge]. destruct (a <? b) eqn:E1; [|destruct (b <? a) eqn:E2].
  - destruct (okl_tail _ _ OA ltac:(lia)) as (a' & as' & -> & OA' & Haa).
    cbn [pop bind]. simpl length in Hf.
    set (t := xorb (f pa pb) (f (negb pa) pb)).
    destruct (IH (keep t a buf) a' as' b bs (negb pa) pb OA' OB ltac:(lia))
      as (out & Eo & Bo & So & Lo & Po).
    exists ((if t then [a] else []) ++ out).
    split; [rewrite Eo, keep_rev; reflexivity|].
    split; [|split; [|split]].
    + apply Forall_app. split; [destruct t; repeat constructor; lia|].
      eapply Forall_impl; [|exact Bo]. simpl; intros; lia.
    + destruct t; simpl; auto. apply sorted_cons; auto. eapply Forall_impl; [|exact Bo]. simpl; intros; lia.
    + intros LA LB. specialize (Lo ltac:(inversion LA; auto) LB).
      destruct t; simpl; auto. constructor; auto.
      assert (a < a') by (inversion LA as [|? ? _ FA]; inversion FA; subst; unfold slt in *; lia).
      eapply Forall_impl; [|exact Bo]. simpl; intros; lia.
    + intros c Hc. rewrite par_app, Po by auto. destruct (a <=? c) eqn:Ec.
      * rewrite (val_step pa a (a' :: as') a' as') by (auto || lia).
        assert (par (if t then [a] else []) c = t) as ->
          by (destruct t; simpl; [rewrite Ec|]; reflexivity).
        unfold t. destruct (f pa pb), (f (negb pa) pb), (f (val (negb pa) a' as' c) (val pb b bs c)); reflexivity.
      * assert (par (if t then [a] else []) c = false) as ->
          by (destruct t; simpl; [rewrite Ec|]; reflexivity).
        rewrite !val_low by (auto || lia || apply OA').
        destruct (f (negb pa) pb), (f pa pb); reflexivity.
  - destruct (okl_tail _ _ OB ltac:(lia)) as (b' & bs' & -> & OB' & Hbb).
    cbn [pop bind]. simpl length in Hf.
    set (t := xorb (f pa pb) (f pa (negb pb))).
    destruct (IH (keep t b buf) a as_ b' bs' pa (negb pb) OA OB' ltac:(lia))
      as (out & Eo & Bo & So & Lo & Po).
    exists ((if t then [b] else []) ++ out).
    split; [rewrite Eo, keep_rev; reflexivity|].
    split; [|split; [|split]].
    + apply Forall_app. split; [destruct t; repeat constructor; lia|].
      eapply Forall_impl; [|exact Bo]. simpl; intros; lia.
    + destruct t; simpl; auto. apply sorted_cons; auto. eapply Forall_impl; [|exact Bo]. simpl; intros; lia.
    + intros LA LB. specialize (Lo LA ltac:(inversion LB; auto)).
      destruct t; simpl; auto. constructor; auto.
      assert (b < b') by (inversion LB as [|? ? _ FB]; inversion FB; subst; unfold slt in *; lia).
      eapply Forall_impl; [|exact Bo]. simpl; intros; lia.
    + intros c Hc. rewrite par_app, Po by auto. destruct (b <=? c) eqn:Ec.
      * rewrite (val_step pb b (b' :: bs') b' bs') by (auto || lia).
        assert (par (if t then [b] else []) c = t) as ->
          by (destruct t; simpl; [rewrite Ec|]; reflexivity).
        unfold t. destruct (f pa pb), (f pa (negb pb)), (f (val pa a as_ c) (val (negb pb) b' bs' c)); reflexivity.
      * assert (par (if t then [b] else []) c = false) as ->
          by (destruct t; simpl; [rewrite Ec|]; reflexivity).
        rewrite !val_low by (auto || lia || apply OB').
        destruct (f pa (negb pb)), (f pa pb); reflexivity.
  - assert (a = b) by lia. subst b. destruct (a =? HIGH) eqn:E3.
    + exists []. split; [reflexivity|]. split; [constructor|]. split; [constructor|]. split; [constructor|].
      intros c Hc. rewrite !val_low by (auto || lia). simpl. destruct (f pa pb); reflexivity.
    + destruct (okl_tail _ _ OA ltac:(lia)) as (a' & as' & -> & OA' & Haa).
      destruct (okl_tail _ _ OB ltac:(lia)) as (b' & bs' & -> & OB' & Hbb).
      cbn [pop bind]. simpl length in Hf.
      set (t := xorb (f pa pb) (f (negb pa) (negb pb))).
      destruct (IH (keep t a buf) a' as' b' bs' (negb pa) (negb pb) OA' OB' ltac:(lia))
        as (out & Eo & Bo & So & Lo & Po).
      exists ((if t then [a] else []) ++ out).
      split; [rewrite Eo, keep_rev; reflexivity|].
      split; [|split; [|split]].
      * apply Forall_app. split; [destruct t; repeat constructor; lia|].
        eapply Forall_impl; [|exact Bo]. simpl; intros; lia.
      * destruct t; simpl; auto. apply sorted_cons; auto. eapply Forall_impl; [|exact Bo]. simpl; intros; lia.
      * intros LA LB. specialize (Lo ltac:(inversion LA; auto) ltac:(inversion LB; auto)).
        destruct t; simpl; auto. constructor; auto.
        assert (a < a') by (inversion LA as [|? ? _ FA]; inversion FA; subst; unfold slt in *; lia).
        assert (a < b') by (inversion LB as [|? ? _ FB]; inversion FB; subst; unfold slt in *; lia).
        eapply Forall_impl; [|exact Bo]. simpl; intros; lia.
      * intros c Hc. rewrite par_app, Po by auto. destruct (a <=? c) eqn:Ec.
        -- rewrite (val_step pa a (a' :: as') a' as') by (auto || lia).
           rewrite (val_step pb a (b' :: bs') b' bs') by (auto || lia).
           assert (par (if t then [a] else []) c = t) as ->
             by (destruct t; simpl; [rewrite Ec|]; reflexivity).
           unfold t. destruct (f pa pb), (f (negb pa) (negb pb)), (f (val (negb pa) a' as' c) (val (negb pb) b' bs' c)); reflexivity.
        -- assert (par (if t then [a] else []) c = false) as ->
             by (destruct t; simpl; [rewrite Ec|]; reflexivity).
           rewrite !val_low by (auto || lia || apply OA' || apply OB').
           destruct (f (negb pa) (negb pb)), (f pa pb); reflexivity.
Qed.
End Merge.

Definition pol (pa pb : bool) : Z := (if pa then 1 else 0) + (if pb then 2 else 0).

Lemma retain_merge : forall fuel buf a as_ b bs pa pb,
  retain_loop fuel buf a as_ b bs (pol pa pb) = merge andb fuel buf a as_ b bs pa pb.
Proof.
  induction fuel as [|k IH]; intros; [reflexivity|].
  cbn [retain_loop merge].
  destruct pa, pb; cbn [pol negb xorb andb keep Z.add Z.eqb Pos.add Pos.eqb Z.lxor Pos.lxor Pos.Ndouble Pos.Nsucc_double N.succ_double N.double Z.of_N].
  all: change 0 with (pol false false) || idtac.
  all: try change 1 with (pol true false); try change 2 with (pol false true); try change 3 with (pol true true).
  all: destruct (a <? b) eqn:E1; [|destruct (b <? a) eqn:E2];
    [ try (destruct (b <? a) eqn:E2; [lia|])| |];
    [destruct as_ | destruct bs | destruct (a =? HIGH); [reflexivity|]; destruct as_, bs];
    cbn [pop bind]; try reflexivity; rewrite <- IH; reflexivity.
Qed.

Lemma xor_merge : forall fuel buf a as_ b bs pa pb,
  xor_loop fuel buf a as_ b bs =
  let* buf' := merge xorb fuel buf a as_ b bs pa pb in Ok (HIGH :: buf').
Proof.
  induction fuel as [|k IH]; intros; [reflexivity|].
  cbn [xor_loop merge].
  destruct (a <? b); [|destruct (b <? a); [|destruct (a =? HIGH); [reflexivity|]]].
  - destruct as_ as [|x as']; [reflexivity|]. cbn [pop bind].
    rewrite (IH _ _ _ _ _ (negb pa) pb). destruct pa, pb; reflexivity.
  - destruct bs as [|x bs']; [reflexivity|]. cbn [pop bind].
    rewrite (IH _ _ _ _ _ pa (negb pb)). destruct pa, pb; reflexivity.
  - cbn [negb]. destruct as_ as [|x as']; [reflexivity|]. cbn [pop bind].
    destruct bs as [|y bs']; [reflexivity|]. cbn [pop bind].
    rewrite (IH _ _ _ _ _ (negb pa) (negb pb)). destruct pa, pb; reflexivity.
Qed.

Definition Canon (l : uset) : Prop := WF l /\ StronglySorted Z.lt l.

Lemma WF_okl l : WF l -> exists a as_, l = a :: as_ /\ okl (a :: as_).
Proof.
  intros (S & B & N & L). destruct l as [|a as_]; [congruence|]. exists a, as_.
  repeat split; auto. eapply Forall_impl; [|exact B]. simpl; intros; lia.
Qed.

Lemma WF_min a as_ : WF (a :: as_) -> 0 <= a.
Proof. intros (_ & B & _). inversion B; lia. Qed.

Lemma ss_lt_slt l : StronglySorted Z.lt l -> StronglySorted slt l.
Proof.
  induction 1; constructor; auto. eapply Forall_impl; [|eassumption]. intros; left; auto.
Qed.

Lemma ss_lt_snoc out : StronglySorted Z.lt out -> Forall (fun x => x < HIGH) out ->
  StronglySorted Z.lt (out ++ [HIGH]).
Proof.
  induction 1; simpl; intros B.
  - repeat constructor.
  - inversion B; subst. constructor; auto. apply Forall_app; split; auto.
Qed.

Lemma WF_out out m : Forall (fun x => m <= x < HIGH) out -> 0 <= m -> sorted out -> WF (out ++ [HIGH]).
Proof.
  intros B Hm S. apply WF_intro; [| |eauto].
  - apply sorted_app; auto using sorted_cons, SSorted_nil.
    intros x y Hx [<-|[]]. pose proof (in_le _ _ _ B Hx); simpl in *; lia.
  - apply Forall_app; split; [eapply Forall_impl; [|exact B]; simpl; intros; lia|].
    constructor; auto. unfold HIGH; lia.
Qed.

Lemma par_snoc_high out c : c < HIGH -> par (out ++ [HIGH]) c = par out c.
Proof.
  intros. rewrite par_app. simpl. destruct (HIGH <=? c) eqn:E; [lia|]. destruct (par out c); reflexivity.
Qed.

Lemma retainList_spec l o pb : WF l -> WF o ->
  exists r, retainList l o (pol false pb) = Ok r /\ WF r /\
    (StronglySorted slt l -> StronglySorted slt o -> Canon r) /\
    forall c, c < HIGH -> par r c = par l c && xorb pb (par o c).
Proof.
  intros WL WO. destruct (WF_okl l WL) as (a & as_ & -> & OA).
  destruct (WF_okl o WO) as (b & bs & -> & OB).
  unfold retainList. cbn [pop bind]. rewrite retain_merge.
  destruct (merge_spec andb (length (a :: as_) + length (b :: bs)) [] a as_ b bs false pb OA OB)
    as (out & Eo & Bo & So & Lo & Po); [simpl; lia|].
  rewrite Eo. cbn [bind]. rewrite app_nil_r. cbn [rev]. rewrite rev_involutive.
  pose proof (WF_min _ _ WL). pose proof (WF_min _ _ WO).
  assert (W : WF (out ++ [HIGH])) by (eapply WF_out; eauto; lia).
  exists (out ++ [HIGH]). split; [reflexivity|]. split; [exact W|]. split.
  - intros LA LB. split; auto. apply ss_lt_snoc; auto. eapply Forall_impl; [|exact Bo]; simpl; intros; lia.
  - intros c Hc. rewrite par_snoc_high, Po by auto. unfold val.
    destruct (par (a :: as_) c), (xorb pb (par (b :: bs) c)); reflexivity.
Qed.

Lemma exclusiveOrList_spec l o : WF l -> WF o ->
  exists r, exclusiveOrList l o 0 = Ok r /\ WF r /\
    (StronglySorted slt l -> StronglySorted slt o -> Canon r) /\
    forall c, c < HIGH -> par r c = xorb (par l c) (par o c).
Proof.
  intros WL WO. destruct (WF_okl l WL) as (a & as_ & -> & OA).
  destruct (WF_okl o WO) as (b & bs & -> & OB).
  unfold exclusiveOrList. cbn [pop bind Z.eqb orb]. rewrite (xor_merge _ _ _ _ _ _ false false).
  destruct (merge_spec xorb (length (a :: as_) + length (b :: bs) + 1) [] a as_ b bs false false OA OB)
    as (out & Eo & Bo & So & Lo & Po); [simpl; lia|].
  rewrite Eo. cbn [bind]. rewrite app_nil_r. cbn [rev]. rewrite rev_involutive.
  pose proof (WF_min _ _ WL). pose proof (WF_min _ _ WO).
  assert (W : WF (out ++ [HIGH])) by (eapply WF_out; eauto; lia).
  exists (out ++ [HIGH]). split; [reflexivity|]. split; [exact W|]. split.
  - intros LA LB. split; auto. apply ss_lt_snoc; auto. eapply Forall_impl; [|exact Bo]; simpl; intros; lia.
  - intros c Hc. rewrite par_snoc_high, Po by auto. unfold val.
    destruct (par (a :: as_) c), (par (b :: bs) c); reflexivity.
Qed.
