(** * The union loop of UnicodeSet ([_addList], polarity 0). *)
From Coq Require Import ZArith List Bool Lia Sorted ZifyBool.
From Verif Require Import Py UnicodeSet UnicodeSetFacts UnicodeSetMerge.
Import ListNotations.
Open Scope Z_scope.

(** Membership read as pairs [lo, hi). *)
Fixpoint inr (l : list Z) (c : Z) : bool :=
  match l with
  | lo :: r => match r with
               | hi :: r' => (lo <=? c) && (c <? hi) || inr r' c
               | [] => false
               end
  | [] => false
  end.

Lemma inr_cons2 lo hi r c : inr (lo :: hi :: r) c = (lo <=? c) && (c <? hi) || inr r c.
Proof. reflexivity. Qed.

Lemma list_ind2 {A} (P : list A -> Prop) :
  P [] -> (forall x, P [x]) -> (forall x y l, P l -> P (x :: y :: l)) -> forall l, P l.
Proof.
  intros H0 H1 H2. assert (forall l, P l /\ forall x, P (x :: l)) as H.
  { induction l as [|a l [IH1 IH2]]; split; auto. }
  intros l; apply H.
Qed.

Lemma inr_lower lo l c : Forall (fun x => lo <= x) l -> inr l c = true -> lo <= c.
Proof.
  induction l using list_ind2; simpl; try discriminate.
  intros F H. inversion F as [|? ? F1 F2]; inversion F2; subst.
  apply orb_true_iff in H as [H|H]; [lia|auto].
Qed.

Lemma inr_below lo l c : Forall (fun x => lo <= x) l -> c < lo -> inr l c = false.
Proof.
  intros F H. destruct (inr l c) eqn:E; auto. apply (inr_lower lo) in E; auto. lia.
Qed.

Lemma par_inr l c : sorted l -> last l 0 = HIGH -> c < HIGH -> par l c = inr l c.
Proof.
  induction l as [| |x y l IH] using list_ind2; intros S L Hc; auto.
  - simpl in *. destruct (x <=? c) eqn:E; [lia|reflexivity].
  - rewrite inr_cons2. cbn [par].
    inversion S as [|? ? S1 F1]; inversion S1 as [|? ? S2 F2]; subst.
    inversion F1; subst.
    destruct l as [|z l].
    + simpl. simpl in L. lia.
    + rewrite IH; auto.
      destruct (inr (z :: l) c) eqn:E.
      * apply (inr_lower y) in E; [|auto]. lia.
      * lia.
Qed.

Lemma inr_app_even l1 l2 c : Nat.even (length l1) = true -> inr (l1 ++ l2) c = inr l1 c || inr l2 c.
Proof.
  induction l1 as [| |x y l IH] using list_ind2; simpl; intros E; try discriminate; auto.
  rewrite IH by auto. rewrite orb_assoc. reflexivity.
Qed.

Lemma inr_close buf s t c : Nat.even (length buf) = true ->
  inr (rev (t :: s :: buf)) c = inr (rev buf) c || (s <=? c) && (c <? t).
Proof.
  intros. cbn [rev]. rewrite <- app_assoc, inr_app_even by (rewrite rev_length; auto).
  simpl. rewrite orb_false_r. reflexivity.
Qed.

Notation desc := (StronglySorted Z.ge).

Lemma desc_rev l : desc l -> sorted (rev l).
Proof.
  induction 1; simpl; [constructor|].
  apply sorted_app; auto using sorted_cons, SSorted_nil.
  intros u v Ha [<-|[]]. apply in_rev in Ha. pose proof (in_le _ _ _ H0 Ha). simpl in *. lia.
Qed.

(** [e] is the current value of one operand, [rest] the unread part of it. *)
Definition okr (lo e : Z) (rest : list Z) :=
  sorted rest /\ Forall (fun x => lo <= x <= HIGH) rest /\ lo <= e <= HIGH /\ last (e :: rest) 0 = HIGH.

Lemma okr_pop lo e rest : okr lo e rest -> e <> HIGH ->
  exists y r, rest = y :: r /\ okr lo y r /\ sorted (y :: r).
Proof.
  intros (S & B & E & L) H. destruct (last_cons_high _ _ L H) as [N L'].
  destruct rest as [|y r]; [congruence|]. exists y, r. split; auto.
  inversion S; inversion B; subst. repeat split; auto; lia.
Qed.

Lemma okr_weaken lo lo' e e' rest : okr lo e rest -> lo' <= lo -> e <= e' <= HIGH -> okr lo' e' rest.
Proof.
  intros (S & B & E & L) H1 H2. repeat split; auto; try lia.
  - eapply Forall_impl; [|exact B]; simpl; intros; lia.
  - destruct rest; simpl in *; [lia|auto].
Qed.

Lemma okr_raise lo e rest : okr lo e rest -> sorted (e :: rest) -> okr e e rest.
Proof.
  intros (S & B & E & L) H. inversion H as [|? ? S' F]; subst. repeat split; auto; try lia.
  apply Forall_forall. intros x Hx. pose proof (in_le _ _ _ B Hx). pose proof (in_le _ _ _ F Hx). simpl in *; lia.
Qed.

Lemma okr_high lo e rest c : okr lo e rest -> sorted (e :: rest) -> e = HIGH -> c < HIGH -> inr (e :: rest) c = false.
Proof.
  intros (S & B & E & L) H -> Hc. apply (inr_below HIGH); auto.
  inversion H; subst. constructor; [lia|auto].
Qed.

Lemma okr_lower lo e rest c : okr lo e rest -> inr rest c = true -> lo <= c.
Proof.
  intros (S & B & E & L). apply inr_lower. eapply Forall_impl; [|exact B]; simpl; intros; lia.
Qed.

Definition lo2 (buf : list Z) : Z := match buf with _ :: s :: _ => s | _ => 0 end.
Definition inb (buf : list Z) := Forall (fun x => 0 <= x < HIGH) buf.

Definition Good (r : res (list Z)) (U : Z -> bool) : Prop :=
  exists out, r = Ok out /\ desc out /\ inb out /\
              forall c, c < HIGH -> inr (rev out ++ [HIGH]) c = U c.

Lemma Good_ext r U V : Good r U -> (forall c, c < HIGH -> U c = V c) -> Good r V.
Proof.
  intros (out & E & D & B & H) HV. exists out. repeat split; auto. intros. rewrite H, HV; auto.
Qed.

Definition P00 fuel := forall buf a as_ b bs,
  Nat.even (length buf) = true -> desc buf -> inb buf ->
  okr (lo2 buf) a as_ -> sorted (a :: as_) -> okr (lo2 buf) b bs -> sorted (b :: bs) ->
  (length as_ + length bs < fuel)%nat ->
  Good (add_loop fuel buf a as_ b bs 0)
       (fun c => inr (rev buf) c || (inr (a :: as_) c || inr (b :: bs) c)).
Definition P10 fuel := forall s buf a as_ b bs,
  Nat.even (length buf) = true -> desc (s :: buf) -> inb (s :: buf) ->
  okr s a as_ -> okr s b bs -> sorted (b :: bs) ->
  (length as_ + length bs < fuel)%nat ->
  Good (add_loop fuel (s :: buf) a as_ b bs 1)
       (fun c => inr (rev buf) c || ((s <=? c) && (c <? a)) || (inr as_ c || inr (b :: bs) c)).
Definition P01 fuel := forall s buf a as_ b bs,
  Nat.even (length buf) = true -> desc (s :: buf) -> inb (s :: buf) ->
  okr s a as_ -> sorted (a :: as_) -> okr s b bs ->
  (length as_ + length bs < fuel)%nat ->
  Good (add_loop fuel (s :: buf) a as_ b bs 2)
       (fun c => inr (rev buf) c || ((s <=? c) && (c <? b)) || (inr (a :: as_) c || inr bs c)).
Definition P11 fuel := forall s buf a as_ b bs,
  Nat.even (length buf) = true -> desc (s :: buf) -> inb (s :: buf) ->
  okr s a as_ -> okr s b bs ->
  (length as_ + length bs < fuel)%nat ->
  Good (add_loop fuel (s :: buf) a as_ b bs 3)
       (fun c => inr (rev buf) c || ((s <=? c) && (c <? Z.max a b)) || (inr as_ c || inr bs c)).

Lemma desc_cons x l : desc l -> Forall (fun y => y <= x) l -> desc (x :: l).
Proof. intros; constructor; auto. eapply Forall_impl; [|eassumption]; simpl; intros; lia. Qed.

Lemma desc_le s buf x : desc (s :: buf) -> s <= x -> Forall (fun y => y <= x) (s :: buf).
Proof.
  intros D H. inversion D; subst. constructor; auto. eapply Forall_impl; [|eassumption]; simpl; intros; lia.
Qed.

Lemma Good_open s buf (U : Z -> bool) : Nat.even (length buf) = true -> desc (s :: buf) -> inb (s :: buf) ->
  (forall c, c < HIGH -> U c = inr (rev buf) c || (s <=? c)) -> Good (Ok (s :: buf)) U.
Proof.
  intros E D B H. exists (s :: buf). repeat split; auto. intros c Hc.
  rewrite H by auto. change (rev (s :: buf) ++ [HIGH]) with (rev (HIGH :: s :: buf)).
  rewrite inr_close by auto. destruct (inr (rev buf) c); lia.
Qed.

Lemma even_SS {A} (x y : A) l : Nat.even (length (x :: y :: l)) = Nat.even (length l).
Proof. reflexivity. Qed.

Lemma lo2_le buf x : desc buf -> inb buf -> lo2 buf <= x -> 0 <= x ->
   forall t r, buf = t :: r -> t <= x -> Forall (fun y => y <= x) buf.
Proof. intros D B H1 H2 t r -> H3. apply desc_le; auto. Qed.

Ltac sortinv H := let S := fresh "S" in let F := fresh "F" in inversion H as [|? ? S F]; subst.

Lemma add_loop_spec : forall fuel, P00 fuel /\ P10 fuel /\ P01 fuel /\ P11 fuel.
Proof.
  induction fuel as [|k (I00 & I10 & I01 & I11)]; [repeat split; red; intros; lia|].
  repeat split; red.
  - (* both first *)
    intros buf a as_ b bs Ev D B OA SA OB SB Hf.
    pose proof OA as (_ & _ & LA & _). pose proof OB as (_ & _ & LB & _).
    assert (L0 : 0 <= lo2 buf) by (destruct buf as [|t [|s r]]; simpl; try lia; inversion B as [|? ? _ B']; inversion B'; subst; lia).
    cbn [add_loop]. change (0 =? 0) with true. cbv iota.
    change (Z.lxor 0 1) with 1. change (Z.lxor 0 2) with 2. change (Z.lxor 1 2) with 3.
    destruct (a <? b) eqn:E1; [|destruct (b <? a) eqn:E2; [|destruct (a =? HIGH) eqn:E3]].
    + destruct (okr_pop _ _ _ OA ltac:(lia)) as (x & as' & -> & OA' & SA').
      cbn [pop bind]. simpl length in Hf.
      pose proof (okr_raise _ _ _ OA SA) as OA2. 
      assert (Hax : a <= x) by (sortinv SA; inversion F; subst; auto).
      assert (OX : okr a x as') by (destruct OA2 as (u & v & w & z); inversion u; inversion v; subst; repeat split; auto; lia).
      assert (OB2 : okr a b bs) by (destruct OB as (u & v & w & z); sortinv SB; repeat split; auto; try lia;
         apply Forall_forall; intros q Hq; pose proof (in_le _ _ _ v Hq); pose proof (in_le _ _ _ F Hq); simpl in *; lia).
      assert (App : Forall (fun y => y <= a) buf ->
        Good (add_loop k (a :: buf) x as' b bs 1) (fun c => inr (rev buf) c || (inr (a :: x :: as') c || inr (b :: bs) c))).
      { intros Fa. eapply Good_ext; [apply I10; auto; try lia|].
        - apply desc_cons; auto.
        - constructor; auto; lia.
        - intros c Hc. cbv beta. rewrite inr_cons2. destruct (inr (rev buf) c), (inr as' c), (inr (b :: bs) c); lia. }
      destruct buf as [|t buf']; [apply App; constructor|].
      destruct (a <=? t) eqn:Et.
      * destruct buf' as [|s buf0]; [discriminate|]. simpl in OA', OB, LA, LB.
        pose proof B as B0. inversion B as [|? ? Bt B']; inversion B' as [|? ? Bs B'']; subst.
        inversion D as [|? ? D' FD]; subst. inversion FD; subst.
        eapply Good_ext; [apply I10; auto; try lia|].
        -- eapply okr_weaken; [exact OA'| |]; try lia. destruct OA' as (_ & _ & u & _). lia.
        -- intros c Hc. cbv beta. rewrite inr_cons2, inr_close by auto.
           destruct (inr (rev buf0) c), (inr as' c), (inr (b :: bs) c); lia.
      * apply App. apply desc_le; auto; lia.
    + destruct (okr_pop _ _ _ OB ltac:(lia)) as (x & bs' & -> & OB' & SB').
      cbn [pop bind]. simpl length in Hf.
      pose proof (okr_raise _ _ _ OB SB) as OB2. 
      assert (Hbx : b <= x) by (sortinv SB; inversion F; subst; auto).
      assert (OX : okr b x bs') by (destruct OB2 as (u & v & w & z); inversion u; inversion v; subst; repeat split; auto; lia).
      assert (OA2 : okr b a as_) by (destruct OA as (u & v & w & z); sortinv SA; repeat split; auto; try lia;
         apply Forall_forall; intros q Hq; pose proof (in_le _ _ _ v Hq); pose proof (in_le _ _ _ F Hq); simpl in *; lia).
      assert (App : Forall (fun y => y <= b) buf ->
        Good (add_loop k (b :: buf) a as_ x bs' 2) (fun c => inr (rev buf) c || (inr (a :: as_) c || inr (b :: x :: bs') c))).
      { intros Fa. eapply Good_ext; [apply I01; auto; try lia|].
        - apply desc_cons; auto.
        - constructor; auto; lia.
        - intros c Hc. cbv beta. rewrite inr_cons2. destruct (inr (rev buf) c), (inr (a :: as_) c), (inr bs' c); lia. }
      destruct buf as [|t buf']; [apply App; constructor|].
      destruct (b <? t) eqn:Et.
      * destruct buf' as [|s buf0]; [discriminate|]. simpl in OB', OA, LA, LB.
        inversion B as [|? ? Bt B']; inversion B' as [|? ? Bs B'']; subst.
        inversion D as [|? ? D' FD]; subst. inversion FD; subst.
        eapply Good_ext; [apply I01; auto; try lia|].
        -- eapply okr_weaken; [exact OB'| |]; try lia. destruct OB' as (_ & _ & u & _). lia.
        -- intros c Hc. cbv beta. rewrite inr_cons2, inr_close by auto.
           destruct (inr (rev buf0) c), (inr (a :: as_) c), (inr bs' c); lia.
      * apply App. apply desc_le; auto; lia.
    + (* done *)
      exists buf. repeat split; auto. intros c Hc.
      rewrite inr_app_even by (rewrite rev_length; auto).
      rewrite (okr_high _ _ _ _ OA) by (auto; lia). rewrite (okr_high _ _ _ _ OB) by (auto; lia). reflexivity.
    + assert (b = a) by lia. subst b. clear E1 E2.
      destruct (okr_pop _ _ _ OA ltac:(lia)) as (x & as' & -> & OA' & SA').
      destruct (okr_pop _ _ _ OB ltac:(lia)) as (y & bs' & -> & OB' & SB').
      cbn [pop bind]. simpl length in Hf.
      pose proof (okr_raise _ _ _ OA SA) as OA2. pose proof (okr_raise _ _ _ OB SB) as OB2.
      assert (Hax : a <= x) by (sortinv SA; inversion F; subst; auto).
      assert (Hay : a <= y) by (sortinv SB; inversion F; subst; auto).
      assert (OX : okr a x as') by (destruct OA2 as (u & v & w & z); inversion u; inversion v; subst; repeat split; auto; lia).
      assert (OY : okr a y bs') by (destruct OB2 as (u & v & w & z); inversion u; inversion v; subst; repeat split; auto; lia).
      assert (App : Forall (fun y => y <= a) buf ->
        Good (add_loop k (a :: buf) x as' y bs' 3) (fun c => inr (rev buf) c || (inr (a :: x :: as') c || inr (a :: y :: bs') c))).
      { intros Fa. eapply Good_ext; [apply I11; auto; try lia|].
        - apply desc_cons; auto.
        - constructor; auto; lia.
        - intros c Hc. cbv beta. rewrite !inr_cons2. destruct (inr (rev buf) c), (inr as' c), (inr bs' c); lia. }
      destruct buf as [|t buf']; [apply App; constructor|].
      destruct (a <? t) eqn:Et.
      * destruct buf' as [|s buf0]; [discriminate|]. simpl in OA', OB', LA, LB.
        inversion B as [|? ? Bt B']; inversion B' as [|? ? Bs B'']; subst.
        inversion D as [|? ? D' FD]; subst. inversion FD; subst.
        eapply Good_ext; [apply I11; auto; try lia|].
        -- eapply okr_weaken; [exact OA'| |]; try lia. destruct OA' as (_ & _ & u & _). lia.
        -- intros c Hc. cbv beta. rewrite !inr_cons2, inr_close by auto.
           destruct (inr (rev buf0) c), (inr as' c), (inr bs' c); lia.
      * apply App. apply desc_le; auto; lia.
  - (* a second, b first *)
    intros s buf a as_ b bs Ev D B OA OB SB Hf.
    pose proof OA as (_ & _ & LA & _). pose proof OB as (_ & _ & LB & _).
    cbn [add_loop]. change (1 =? 0) with false. change (1 =? 3) with false. change (1 =? 1) with true. cbv iota.
    change (Z.lxor 1 1) with 0. change (Z.lxor 1 2) with 3. change (Z.lxor 0 2) with 2.
    destruct (a <? b) eqn:E1; [|destruct (b <? a) eqn:E2; [|destruct (a =? HIGH) eqn:E3]].
    + destruct (okr_pop _ _ _ OA ltac:(lia)) as (x & as' & -> & OA' & SA').
      cbn [pop bind]. simpl length in Hf.
      eapply Good_ext; [apply I00; auto; try lia|].
      * apply desc_cons; auto. apply desc_le; auto; lia.
      * constructor; auto. inversion B; lia.
      * intros c Hc. cbv beta. rewrite inr_close by auto.
        destruct (inr (rev buf) c), (inr (x :: as') c), (inr (b :: bs) c); lia.
    + destruct (okr_pop _ _ _ OB ltac:(lia)) as (y & bs' & -> & OB' & SB').
      cbn [pop bind]. simpl length in Hf.
      eapply Good_ext; [apply I11; auto; try lia|].
      intros c Hc. cbv beta. rewrite inr_cons2.
      destruct (inr (rev buf) c), (inr as_ c), (inr bs' c); lia.
    + apply Good_open; auto. intros c Hc. rewrite (okr_high _ _ _ _ OB) by (auto; lia).
      destruct (inr as_ c) eqn:Ei; [apply (okr_lower _ _ _ _ OA) in Ei|]; destruct (inr (rev buf) c); lia.
    + destruct (okr_pop _ _ _ OA ltac:(lia)) as (x & as' & -> & OA' & SA').
      destruct (okr_pop _ _ _ OB ltac:(lia)) as (y & bs' & -> & OB' & SB').
      cbn [pop bind]. simpl length in Hf.
      assert (b <= y) by (sortinv SB; inversion F; subst; auto).
      eapply Good_ext; [apply I01; auto; try lia|].
      intros c Hc. cbv beta. rewrite (inr_cons2 b).
      destruct (inr (rev buf) c), (inr (x :: as') c), (inr bs' c); lia.
  - (* a first, b second *)
    intros s buf a as_ b bs Ev D B OA SA OB Hf.
    pose proof OA as (_ & _ & LA & _). pose proof OB as (_ & _ & LB & _).
    cbn [add_loop]. change (2 =? 0) with false. change (2 =? 3) with false. change (2 =? 1) with false.
    change (2 =? 2) with true. cbv iota.
    change (Z.lxor 2 1) with 3. change (Z.lxor 2 2) with 0. change (Z.lxor 3 2) with 1.
    destruct (b <? a) eqn:E1; [|destruct (a <? b) eqn:E2; [|destruct (a =? HIGH) eqn:E3]].
    + destruct (okr_pop _ _ _ OB ltac:(lia)) as (x & bs' & -> & OB' & SB').
      cbn [pop bind]. simpl length in Hf.
      eapply Good_ext; [apply I00; auto; try lia|].
      * apply desc_cons; auto. apply desc_le; auto; lia.
      * constructor; auto. inversion B; lia.
      * intros c Hc. cbv beta. rewrite inr_close by auto.
        destruct (inr (rev buf) c), (inr (a :: as_) c), (inr (x :: bs') c); lia.
    + destruct (okr_pop _ _ _ OA ltac:(lia)) as (y & as' & -> & OA' & SA').
      cbn [pop bind]. simpl length in Hf.
      eapply Good_ext; [apply I11; auto; try lia|].
      intros c Hc. cbv beta. rewrite inr_cons2.
      destruct (inr (rev buf) c), (inr as' c), (inr bs c); lia.
    + apply Good_open; auto. intros c Hc. rewrite (okr_high _ _ _ _ OA) by (auto; lia).
      destruct (inr bs c) eqn:Ei; [apply (okr_lower _ _ _ _ OB) in Ei|]; destruct (inr (rev buf) c); lia.
    + destruct (okr_pop _ _ _ OA ltac:(lia)) as (x & as' & -> & OA' & SA').
      destruct (okr_pop _ _ _ OB ltac:(lia)) as (y & bs' & -> & OB' & SB').
      cbn [pop bind]. simpl length in Hf.
      assert (a <= x) by (sortinv SA; inversion F; subst; auto).
      eapply Good_ext; [apply I10; auto; try lia|].
      intros c Hc. cbv beta. rewrite (inr_cons2 a).
      destruct (inr (rev buf) c), (inr as' c), (inr (y :: bs') c); lia.
  - (* both second *)
    intros s buf a as_ b bs Ev D B OA OB Hf.
    pose proof OA as (_ & _ & LA & _). pose proof OB as (_ & _ & LB & _).
    cbn [add_loop]. change (3 =? 0) with false. change (3 =? 3) with true. cbv iota.
    change (Z.lxor (Z.lxor 3 1) 2) with 0.
    assert (Em : (if b <=? a then a else b) = Z.max a b) by (destruct (b <=? a) eqn:E; lia).
    destruct (if b <=? a then a =? HIGH else b =? HIGH) eqn:E.
    + apply Good_open; auto. intros c Hc.
      assert (Z.max a b = HIGH) as -> by (destruct (b <=? a) eqn:E2; lia).
      destruct (inr as_ c) eqn:Ei; [apply (okr_lower _ _ _ _ OA) in Ei|];
      destruct (inr bs c) eqn:Ej; try (apply (okr_lower _ _ _ _ OB) in Ej); destruct (inr (rev buf) c); lia.
    + assert (Z.max a b <> HIGH) by (destruct (b <=? a) eqn:E2; lia).
      destruct (okr_pop _ _ _ OA ltac:(lia)) as (x & as' & -> & OA' & SA').
      destruct (okr_pop _ _ _ OB ltac:(lia)) as (y & bs' & -> & OB' & SB').
      cbn [pop bind]. simpl length in Hf. rewrite Em.
      eapply Good_ext; [apply I00; auto; try lia|].
      * apply desc_cons; auto. apply desc_le; auto; lia.
      * constructor; auto. inversion B; lia.
      * intros c Hc. cbv beta. rewrite inr_close by auto.
        destruct (inr (rev buf) c), (inr (x :: as') c), (inr (y :: bs') c); lia.
Qed.

Lemma WF_okr a as_ : WF (a :: as_) -> okr 0 a as_ /\ sorted (a :: as_).
Proof.
  intros (S & B & N & L). split; auto. inversion S; inversion B; subst. repeat split; auto; lia.
Qed.

Lemma addList_start a as_ b bs : WF (a :: as_) -> WF (b :: bs) ->
  Good (add_loop (length (a :: as_) + length (b :: bs)) [] a as_ b bs 0)
       (fun c => inr (a :: as_) c || inr (b :: bs) c).
Proof.
  intros WL WO. destruct (WF_okr _ _ WL) as [OA SA]. destruct (WF_okr _ _ WO) as [OB SB].
  destruct (add_loop_spec (length (a :: as_) + length (b :: bs))) as (I & _).
  exact (I [] a as_ b bs eq_refl (SSorted_nil _) (Forall_nil _) OA SA OB SB ltac:(simpl; lia)).
Qed.

Lemma addList_spec l o : WF l -> WF o ->
  exists r, addList l o 0 = Ok r /\ WF r /\
    forall c, c < HIGH -> par r c = par l c || par o c.
Proof.
  intros WL WO. 
  assert (NL : l <> []) by apply WL. assert (NO : o <> []) by apply WO.
  destruct l as [|a as_]; [congruence|]. destruct o as [|b bs]; [congruence|].
  unfold addList. cbn [pop bind].
  destruct (addList_start _ _ _ _ WL WO) as (out & Eo & Do & Bo & Po).
  rewrite Eo. cbn [bind rev].
  assert (W : WF (rev out ++ [HIGH])).
  { eapply (WF_out _ 0); [|lia|apply desc_rev; auto].
    apply Forall_rev. exact Bo. }
  exists (rev out ++ [HIGH]). split; auto. split; auto.
  intros c Hc. rewrite par_inr by (auto; apply W). rewrite Po by auto.
  rewrite !par_inr by (auto; apply WL || apply WO). reflexivity.
Qed.
