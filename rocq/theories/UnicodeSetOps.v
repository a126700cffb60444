(** * Remaining mutators: ranges, complement; preservation of strict order. *)
From Coq Require Import ZArith List Bool Lia Sorted ZifyBool.
From Verif Require Import Py UnicodeSet UnicodeSetFacts UnicodeSetMerge UnicodeSetUnion.
Import ListNotations.
Open Scope Z_scope.

Notation strict := (StronglySorted Z.lt).

Lemma strict_sorted l : strict l -> sorted l.
Proof. induction 1; constructor; auto. eapply Forall_impl; [|eassumption]; simpl; intros; lia. Qed.

Lemma strict_app_inv l1 l2 : strict (l1 ++ l2) ->
  strict l1 /\ strict l2 /\ forall x y, In x l1 -> In y l2 -> x < y.
Proof.
  induction l1; simpl; intros H.
  - repeat split; auto using SSorted_nil. intros ? ? [].
  - inversion H as [|? ? Hs Hf]; subst. destruct (IHl1 Hs) as (A & B & C).
    rewrite Forall_app in Hf. destruct Hf as [F1 F2].
    repeat split; auto.
    + constructor; auto.
    + intros x y [->|Hx] Hy; auto. rewrite Forall_forall in F2. auto.
Qed.

Lemma strict_app l1 l2 : strict l1 -> strict l2 ->
  (forall x y, In x l1 -> In y l2 -> x < y) -> strict (l1 ++ l2).
Proof.
  induction 1; simpl; intros S2 H2; auto.
  constructor.
  - apply IHStronglySorted; auto.
  - apply Forall_app; split; auto. apply Forall_forall; auto.
Qed.

Lemma strict_cons x l : strict l -> Forall (fun y => x < y) l -> strict (x :: l).
Proof. intros; constructor; auto. Qed.

Lemma add_strict l cp l' : WF l -> strict l -> 0 <= cp < HIGH -> add l cp = Ok l' -> strict l'.
Proof.
  intros W St H. destruct (WF_split l cp W ltac:(lia)) as (p & x & s & E & F & A & B & C).
  unfold add. rewrite pin_id, F by auto. cbn [bind]. rewrite land1_odd.
  destruct (Z.odd (zlen p)) eqn:O; [intros [= <-]; auto|].
  subst l. pose proof W as (_ & Bd & _ & _).
  apply strict_app_inv in St as (Sp & Ss & Cr). inversion Ss as [|? ? Ss' Fs]; subst.
  rewrite Forall_app in Bd. destruct Bd as [Bp Bs]. inversion Bs as [|? ? Bx Bs']; subst.
  rewrite py_get_mid. cbn [bind].
  destruct (cp =? x - 1) eqn:Ex.
  - assert (x = cp + 1) by lia. subst x. rewrite py_set_mid. cbn [bind].
    set (l2 := if cp =? HIGH - 1 then (p ++ cp :: s) ++ [HIGH] else p ++ cp :: s).
    assert (El2 : exists s2, l2 = p ++ cp :: s2 /\ strict s2 /\ Forall (fun y => cp < y) s2).
    { unfold l2. destruct (cp =? HIGH - 1) eqn:Eh.
      - assert (s = []).
        { destruct s as [|z s]; auto. inversion Fs; inversion Bs'; subst. lia. }
        subst s. exists [HIGH]. rewrite <- app_assoc. split; [reflexivity|]. split; repeat constructor; lia.
      - exists s. auto. }
    destruct El2 as (s2 & -> & S2 & B2).
    destruct (zlen p >? 0) eqn:Ep.
    + destruct (@exists_last _ p) as (p' & y & ->); [intros ->; discriminate|].
      replace (zlen (p' ++ [y]) - 1) with (zlen p') by (rewrite zlen_app, zlen_cons, zlen_nil; lia).
      assert (Gy : py_get ((p' ++ [y]) ++ cp :: s2) (zlen p') = Ok y)
        by (rewrite <- app_assoc; apply py_get_mid).
      rewrite Gy. cbn [bind]. rewrite Forall_app in A. destruct A as [A1 A2]. inversion A2; subst.
      apply strict_app_inv in Sp as (Sp' & _ & Cr').
      destruct (cp =? y) eqn:Ey.
      * replace (zlen (p' ++ [y]) + 1) with (zlen p' + zlen [y; cp])
          by (rewrite zlen_app, !zlen_cons, zlen_nil; lia).
        rewrite <- app_assoc. change ([y] ++ cp :: s2) with ([y; cp] ++ s2).
        rewrite set_slice_mid. intros [= <-]. simpl. apply strict_app; auto.
        intros u v Hu Hv. pose proof (in_le _ _ _ A1 Hu). pose proof (in_le _ _ _ B2 Hv). simpl in *; lia.
      * intros [= <-]. apply strict_app; auto.
        -- apply strict_app; auto. repeat constructor.
        -- apply strict_cons; auto.
        -- intros u v Hu Hv. apply in_app_or in Hu.
           assert (u < cp).
           { destruct Hu as [Hu|[<-|[]]]; [|lia]. specialize (Cr' u y Hu (or_introl eq_refl)). lia. }
           destruct Hv as [<-|Hv]; [lia|]. pose proof (in_le _ _ _ B2 Hv). simpl in *; lia.
    + intros [= <-]. assert (p = []) by (destruct p; [auto|rewrite zlen_cons in Ep; pose proof (zlen_nonneg p); lia]).
      subst p. simpl. apply strict_cons; auto.
  - assert (Hx : cp + 1 < x) by lia.
    assert (Ins : (forall u, In u p -> u < cp) ->
       strict (py_set_slice (p ++ x :: s) (zlen p) (zlen p) [cp; cp + 1])).
    { intros Hp. replace (zlen p) with (zlen p + zlen (@nil Z)) at 2 by (rewrite zlen_nil; lia).
      change (p ++ x :: s) with (p ++ [] ++ x :: s). rewrite set_slice_mid.
      apply strict_app; auto.
      - simpl. assert (Forall (fun y => cp + 1 < y) (x :: s)).
        { constructor; [lia|]. eapply Forall_impl; [|exact Fs]; simpl; intros; lia. }
        apply strict_cons; [apply strict_cons; auto|]. constructor; [lia|].
        eapply Forall_impl; [|exact H0]; simpl; intros; lia.
      - intros u v Hu Hv. specialize (Hp u Hu). simpl in Hv.
        destruct Hv as [<-|[<-|[<-|Hv]]]; try lia. pose proof (in_le _ _ _ C Hv). simpl in *; lia. }
    destruct (zlen p >? 0) eqn:Ep.
    + destruct (@exists_last _ p) as (p' & y & Epl); [intros ->; discriminate|].
      assert (Z1 : zlen p - 1 = zlen p') by (rewrite Epl, zlen_app, zlen_cons, zlen_nil; lia).
      assert (Gy : py_get (p ++ x :: s) (zlen p - 1) = Ok y).
      { rewrite Z1, Epl, <- app_assoc. apply py_get_mid. }
      rewrite Gy. cbn [bind].
      rewrite Epl in A. rewrite Forall_app in A. destruct A as [A1 A2]. inversion A2; subst x0 l.
      pose proof Sp as Sp0. rewrite Epl in Sp0. apply strict_app_inv in Sp0 as (Sp' & _ & Cr').
      destruct (cp =? y) eqn:Ey.
      * rewrite Z1, Epl, <- app_assoc. simpl app. rewrite py_set_mid. intros [= <-].
        apply strict_app; auto.
        -- apply strict_cons; auto. constructor; [lia|]. eapply Forall_impl; [|exact Fs]; simpl; intros; lia.
        -- intros u v Hu Hv. pose proof (in_le _ _ _ A1 Hu). simpl in *.
           destruct Hv as [<-|[<-|Hv]]; try lia. pose proof (in_le _ _ _ C Hv). simpl in *; lia.
      * intros [= <-]. apply Ins. intros u Hu. rewrite Epl in Hu. apply in_app_or in Hu.
        destruct Hu as [Hu|[<-|[]]]; [|lia]. specialize (Cr' u y Hu (or_introl eq_refl)). lia.
    + intros [= <-]. apply Ins.
      assert (p = []) by (destruct p; [auto|rewrite zlen_cons in Ep; pose proof (zlen_nonneg p); lia]).
      subst p. intros ? [].
Qed.

(** ** complement() *)

Lemma complement_spec l : WF l ->
  exists l', complement l = Ok l' /\ WF l' /\ (strict l -> strict l') /\
    forall c, 0 <= c < HIGH -> par l' c = negb (par l c).
Proof.
  intros W. pose proof W as (S & B & N & L). destruct l as [|x r]; [congruence|].
  unfold complement. rewrite py_get_cons_0. cbn [bind]. unfold LOW.
  destruct (x =? 0) eqn:E.
  - assert (x = 0) by lia. subst x. exists r.
    assert (N' : r <> [] /\ last r 0 = HIGH) by (apply last_cons_high in L; auto; unfold HIGH; lia).
    inversion S; inversion B; subst.
    split; [|split; [|split]].
    + f_equal. unfold py_slice. rewrite zlen_cons. pose proof (zlen_nonneg r).
      assert (0 < zlen r) by (destruct r; [destruct N'; congruence|rewrite zlen_cons; pose proof (zlen_nonneg r); lia]).
      rewrite !py_bound_in by lia. replace (zlen r + 1 - 1) with (zlen r) by lia.
      change (skipn (Z.to_nat 1) (0 :: r)) with r. unfold zlen. rewrite Nat2Z.id. apply firstn_all.
    + repeat split; auto; apply N'.
    + intros St. inversion St; auto.
    + intros c Hc. simpl. destruct (0 <=? c) eqn:E2; [|lia]. destruct (par r c); reflexivity.
  - exists (0 :: x :: r). inversion S; inversion B; subst.
    split; [|split; [|split]].
    + reflexivity.
    + repeat split; auto.
      * apply sorted_cons; auto. constructor; [lia|]. eapply Forall_impl; [|eassumption]; simpl; intros; lia.
      * constructor; auto. unfold HIGH; lia.
      * discriminate.
    + intros St. constructor; auto. inversion St; subst. constructor; [lia|].
      eapply Forall_impl; [|eassumption]; simpl; intros; lia.
    + intros c Hc. cbn [par]. destruct (0 <=? c) eqn:E2; [|lia].
      destruct (x <=? c), (par r c); reflexivity.
Qed.

(** ** Ranges *)

Lemma WF_range a b : 0 <= a <= b -> b <= HIGH -> WF [a; b; HIGH].
Proof.
  intros. apply WF_intro.
  - repeat constructor; lia.
  - repeat constructor; lia.
  - exists [a; b]. reflexivity.
Qed.

Lemma slt_range a b : a < b -> b <= HIGH -> StronglySorted slt [a; b; HIGH].
Proof.
  intros. apply SSorted_cons; [apply SSorted_cons; [apply SSorted_cons; constructor|]|];
  repeat apply Forall_cons; try apply Forall_nil; unfold slt; lia.
Qed.

Lemma par_range a b c : a <= b -> c < HIGH -> par [a; b; HIGH] c = (a <=? c) && (c <? b).
Proof.
  intros. cbn [par]. destruct (HIGH <=? c) eqn:E; [lia|].
  destruct (a <=? c) eqn:E1, (b <=? c) eqn:E2, (c <? b) eqn:E3; simpl; lia || reflexivity.
Qed.

Lemma new_int_spec x : 0 <= x < HIGH -> WF (new_int x) /\ forall c, c < HIGH -> par (new_int x) c = (c =? x).
Proof.
  intros. split; [apply WF_range; lia|]. intros c Hc. unfold new_int. rewrite par_range by lia. lia.
Qed.

Lemma new_range_spec a b : 0 <= a <= b -> b <= HIGH ->
  WF (new_range a b) /\ forall c, c < HIGH -> par (new_range a b) c = (a <=? c) && (c <? b).
Proof. intros. split; [apply WF_range; lia|]. intros. apply par_range; lia. Qed.

Definition legal_range a b := 0 <= a /\ a <= b /\ b < HIGH.

Lemma removeRange_spec l a b : WF l -> legal_range a b -> a < b ->
  exists r, removeRange l a b = Ok r /\ WF r /\ (strict l -> strict r) /\
    forall c, c < HIGH -> par r c = par l c && negb ((a <=? c) && (c <=? b)).
Proof.
  intros W (H1 & H2 & H3) H4. unfold removeRange. rewrite !pin_id by lia.
  destruct (a <? b) eqn:E; [|lia].
  destruct (retainList_spec l [a; b + 1; HIGH] true W) as (r & Er & Wr & Cr & Pr); [apply WF_range; lia|].
  exists r. split; [exact Er|]. split; auto. split.
  - intros St. apply Cr; [apply ss_lt_slt; auto|apply slt_range; lia].
  - intros c Hc. rewrite Pr, par_range by lia.
    replace (c <? b + 1) with (c <=? b) by lia. destruct ((a <=? c) && (c <=? b)); reflexivity.
Qed.

Lemma retainRange_spec l a b : WF l -> legal_range a b -> a < b ->
  exists r, retainRange l a b = Ok r /\ WF r /\ (strict l -> strict r) /\
    forall c, c < HIGH -> par r c = par l c && ((a <=? c) && (c <=? b)).
Proof.
  intros W (H1 & H2 & H3) H4. unfold retainRange. rewrite !pin_id by lia.
  destruct (a <? b) eqn:E; [|lia].
  destruct (retainList_spec l [a; b + 1; HIGH] false W) as (r & Er & Wr & Cr & Pr); [apply WF_range; lia|].
  exists r. split; [exact Er|]. split; auto. split.
  - intros St. apply Cr; [apply ss_lt_slt; auto|apply slt_range; lia].
  - intros c Hc. rewrite Pr, par_range by lia.
    replace (c <? b + 1) with (c <=? b) by lia. destruct ((a <=? c) && (c <=? b)); reflexivity.
Qed.

Lemma complementRange_spec l a b : WF l -> legal_range a b -> a < b ->
  exists r, complementRange l a b = Ok r /\ WF r /\ (strict l -> strict r) /\
    forall c, c < HIGH -> par r c = xorb (par l c) ((a <=? c) && (c <=? b)).
Proof.
  intros W (H1 & H2 & H3) H4. unfold complementRange. rewrite !pin_id by lia.
  destruct (a <? b) eqn:E; [|lia].
  destruct (exclusiveOrList_spec l [a; b + 1; HIGH] W) as (r & Er & Wr & Cr & Pr); [apply WF_range; lia|].
  exists r. split; [exact Er|]. split; auto. split.
  - intros St. apply Cr; [apply ss_lt_slt; auto|apply slt_range; lia].
  - intros c Hc. rewrite Pr, par_range by lia. f_equal. lia.
Qed.

(** Strict order of the union with a single range. *)
Definition single (b : Z) (bs : list Z) := exists e r, bs = e :: r /\ b < e /\ Forall (fun x => x = HIGH) r.
Definition bfirst (b : Z) (bs : list Z) := b = HIGH \/ single b bs.
Definition bsecond (bs : list Z) := Forall (fun x => x = HIGH) bs.
Notation sdesc := (StronglySorted Z.gt).
Definition below (x : Z) (buf : list Z) := match buf with [] => True | t :: _ => t < x end.

Lemma sdesc_cons x buf : sdesc buf -> below x buf -> sdesc (x :: buf).
Proof.
  intros S H. constructor; auto. destruct buf as [|t buf]; [constructor|].
  inversion S; subst. simpl in H. constructor; [lia|]. eapply Forall_impl; [|eassumption]; simpl; intros; lia.
Qed.


Definition Q fuel := forall buf a as_ b bs pa pb out,
  sdesc buf -> a <= HIGH -> b <= HIGH ->
  Forall (fun x => x <= HIGH) as_ -> Forall (fun x => x <= HIGH) bs ->
  below b buf -> (pa && negb pb = true -> below a buf) ->
  StronglySorted slt (if pa then as_ else a :: as_) ->
  (if pb then bsecond bs else bfirst b bs) ->
  add_loop fuel buf a as_ b bs (pol pa pb) = Ok out -> sdesc out.

Lemma below_mono x y buf : below x buf -> x <= y -> below y buf.
Proof. destruct buf; simpl; lia. Qed.

Ltac bmono := match goal with H : below ?x ?buf |- below ?y ?buf => apply (below_mono x); [exact H|lia] end.

Lemma sdesc_tl x buf : sdesc (x :: buf) -> sdesc buf /\ below x buf.
Proof. intros H. inversion H as [|? ? S F]; subst. split; auto. destruct buf; simpl; auto. inversion F; lia. Qed.

Lemma slt_tail a x as_ : StronglySorted slt (a :: x :: as_) -> a <> HIGH -> a < x /\ StronglySorted slt (x :: as_).
Proof. intros H N. inversion H as [|? ? S F]; subst. split; auto. inversion F; unfold slt in *; subst; lia. Qed.

Lemma bsecond_pop x bs : bsecond (x :: bs) -> x = HIGH.
Proof. intros H; inversion H; auto. Qed.

Lemma add_loop_strict : forall fuel, Q fuel.
Proof.
  induction fuel as [|k IH]; intros buf a as_ b bs pa pb out SD Ha Hb FA FB Bb Ba SA SB; [discriminate|].
  cbn [add_loop].
  destruct pa, pb; cbn [pol] in *; cbn [andb negb] in Ba;
  cbn [Z.add Pos.add Z.eqb Pos.eqb Z.lxor Pos.lxor Pos.Ndouble Pos.Nsucc_double N.succ_double N.double Z.of_N Z.leb Z.ltb].
  - (* both second *)
    destruct (if b <=? a then a =? HIGH else b =? HIGH) eqn:E; [intros [= <-]; auto|].
    destruct as_ as [|x as']; [discriminate|]. destruct bs as [|y bs']; [discriminate|]. cbn [pop bind].
    inversion FA; inversion FB; subst.
    assert (Em : (if b <=? a then a else b) = Z.max a b) by (destruct (b <=? a) eqn:E'; lia). rewrite Em.
    assert (Z.max a b <> HIGH) by (destruct (b <=? a) eqn:E'; lia).
    apply (IH (Z.max a b :: buf) x as' y bs' false false out); auto; try discriminate.
    + apply sdesc_cons; auto. bmono.
    + simpl. rewrite (bsecond_pop _ _ SB). lia.
    + left. apply (bsecond_pop _ _ SB).
  - (* a second, b first *)
    specialize (Ba eq_refl).
    destruct (a <? b) eqn:E1; [|destruct (b <? a) eqn:E2; [|destruct (a =? HIGH) eqn:E3]].
    + destruct as_ as [|x as']; [discriminate|]. cbn [pop bind]. inversion FA; subst.
      apply (IH (a :: buf) x as' b bs false false out); auto; try discriminate.
      * apply sdesc_cons; auto.
      * simpl; lia.
    + destruct bs as [|y bs']; [discriminate|]. cbn [pop bind]. inversion FB; subst.
      destruct SB as [->|(e & r & [= <- <-] & B1 & B2)]; [lia|].
      apply (IH buf a as_ y bs' true true out); auto; try discriminate.
      bmono.
    + intros [= <-]; auto.
    + destruct as_ as [|x as']; [discriminate|]. destruct bs as [|y bs']; [discriminate|]. cbn [pop bind].
      inversion FA; inversion FB; subst.
      destruct SB as [->|(e & r & [= <- <-] & B1 & B2)]; [lia|].
      apply (IH buf x as' y bs' false true out); auto; try discriminate.
      bmono.
  - (* a first, b second *)
    destruct (b <? a) eqn:E1; [|destruct (a <? b) eqn:E2; [|destruct (a =? HIGH) eqn:E3]].
    + destruct bs as [|y bs']; [discriminate|]. cbn [pop bind]. inversion FB; subst.
      pose proof (bsecond_pop _ _ SB). subst y.
      apply (IH (b :: buf) a as_ HIGH bs' false false out); auto; try discriminate.
      * apply sdesc_cons; auto.
      * simpl; lia.
      * left; auto.
    + destruct as_ as [|x as']; [discriminate|]. cbn [pop bind]. inversion FA; subst.
      apply (IH buf x as' b bs true true out); auto; try discriminate.
      inversion SA as [|? ? S1 F1]; inversion S1; subst; auto.
    + intros [= <-]; auto.
    + destruct as_ as [|x as']; [discriminate|]. destruct bs as [|y bs']; [discriminate|]. cbn [pop bind].
      inversion FA; inversion FB; subst.
      pose proof (bsecond_pop _ _ SB). subst y.
      destruct (slt_tail _ _ _ SA ltac:(lia)) as [L1 S1].
      apply (IH buf x as' HIGH bs' true false out); auto; try discriminate.
      * bmono.
      * intros _. bmono.
      * inversion S1; auto.
      * left; auto.
  - (* both first *)
    destruct (a <? b) eqn:E1; [|destruct (b <? a) eqn:E2; [|destruct (a =? HIGH) eqn:E3]].
    + destruct as_ as [|x as']; [discriminate|]. cbn [pop bind]. inversion FA; subst.
      destruct (slt_tail _ _ _ SA ltac:(lia)) as [L1 S1].
      assert (App : below a buf -> add_loop k (a :: buf) x as' b bs 1 = Ok out -> sdesc out).
      { intros Bl. apply (IH (a :: buf) x as' b bs true false out); auto.
        - apply sdesc_cons; auto.
        - simpl; lia.
        - inversion S1; auto. }
      destruct buf as [|t buf']; [apply App; simpl; auto|].
      destruct (a <=? t) eqn:Et; [|apply App; simpl; lia].
      apply sdesc_tl in SD as [SD' Bt]. simpl in Bb.
      apply (IH buf' (Z.max x t) as' b bs true false out); auto; try lia.
      * bmono.
      * intros _. bmono.
      * inversion S1; auto.
    + destruct bs as [|y bs']; [discriminate|]. cbn [pop bind]. inversion FB; subst.
      destruct SB as [->|(e & r & [= <- <-] & B1 & B2)]; [lia|].
      assert (App : below b buf -> add_loop k (b :: buf) a as_ y bs' 2 = Ok out -> sdesc out).
      { intros Bl. apply (IH (b :: buf) a as_ y bs' false true out); auto; try discriminate.
        - apply sdesc_cons; auto. }
      destruct buf as [|t buf']; [apply App; simpl; auto|].
      destruct (b <? t) eqn:Et; [simpl in Bb; lia|]. apply App; auto.
    + intros [= <-]; auto.
    + destruct as_ as [|x as']; [discriminate|]. destruct bs as [|y bs']; [discriminate|]. cbn [pop bind].
      inversion FA; inversion FB; subst.
      destruct (slt_tail _ _ _ SA ltac:(lia)) as [L1 S1].
      destruct SB as [->|(e & r & [= <- <-] & B1 & B2)]; [lia|].
      assert (App : below a buf -> add_loop k (a :: buf) x as' y bs' 3 = Ok out -> sdesc out).
      { intros Bl. apply (IH (a :: buf) x as' y bs' true true out); auto; try discriminate.
        - apply sdesc_cons; auto.
        - simpl; lia.
        - inversion S1; auto. }
      assert (Ba' : below a buf) by (bmono).
      destruct buf as [|t buf']; [apply App; simpl; auto|].
      destruct (a <? t) eqn:Et; [simpl in Ba'; lia|]. apply App; auto.
Qed.

Lemma sdesc_rev l : sdesc l -> strict (rev l).
Proof.
  induction 1; simpl; [constructor|].
  apply strict_app; auto; [repeat constructor|].
  intros u v Ha [<-|[]]. apply in_rev in Ha. pose proof (in_le _ _ _ H0 Ha). simpl in *. lia.
Qed.

Lemma addList_range_spec l a b : WF l -> legal_range a b ->
  exists r, addList l [a; b + 1; HIGH] 0 = Ok r /\ WF r /\ (strict l -> strict r) /\
    forall c, c < HIGH -> par r c = par l c || ((a <=? c) && (c <=? b)).
Proof.
  intros W (H1 & H2 & H3).
  destruct (addList_spec l [a; b + 1; HIGH] W) as (r & Er & Wr & Pr); [apply WF_range; lia|].
  exists r. split; auto. split; auto. split.
  - intros St. unfold addList in Er.
    destruct l as [|x l']; [discriminate|]. cbn [pop bind] in Er.
    destruct (addList_start x l' a [b + 1; HIGH] W) as (out & Eo & _ & Bo & _); [apply WF_range; lia|].
    rewrite Eo in Er. cbn [bind] in Er. injection Er as <-.
    destruct W as (_ & Bd & _ & _). inversion Bd; subst.
    change 0 with (pol false false) in Eo.
    assert (FB : Forall (fun x => x <= HIGH) [b + 1; HIGH]) by (repeat constructor; lia).
    apply add_loop_strict in Eo; auto; try lia; try discriminate.
    + simpl. apply ss_lt_snoc; [apply sdesc_rev; auto|].
      apply Forall_rev. eapply Forall_impl; [|exact Bo]; simpl; intros; lia.
    + constructor.
    + eapply Forall_impl; [|eassumption]; simpl; intros; lia.
    + simpl; auto.
    + apply ss_lt_slt; auto.
    + right. exists (b + 1), [HIGH]. split; auto. split; [lia|]. repeat constructor.
  - intros c Hc. rewrite Pr, par_range by lia. f_equal. lia.
Qed.

(** addRange, all paths *)
Lemma addRange_spec l a b : WF l -> legal_range a b ->
  exists r v, addRange l a b = Ok (r, v) /\ WF r /\ (strict l -> strict r) /\
    forall c, c < HIGH -> par r c = par l c || ((a <=? c) && (c <=? b)).
Proof.
  intros W R. pose proof R as (H1 & H2 & H3). unfold addRange. rewrite !pin_id by lia.
  destruct (a <? b) eqn:E.
  2:{ assert (a = b) by lia. subst b. rewrite Z.eqb_refl.
      destruct (add_spec l a W ltac:(lia)) as (r & Er & Wr & Pr). rewrite Er. cbn [bind].
      exists r, RSelf. split; auto. split; auto. split.
      - intros St. eapply (add_strict l a); eauto.
      - intros c Hc. rewrite Pr by auto. f_equal. lia. }
  destruct (addList_range_spec l a b W R) as (r & Er & Gr).
  assert (Slow : exists (r : uset) (v : ret),
    (let* l' := addList l [a; b + 1; HIGH] 0 in Ok (l', RSelf)) = Ok (r, v) /\
    WF r /\ (strict l -> strict r) /\
    (forall c : Z, c < HIGH -> par r c = par l c || (a <=? c) && (c <=? b))).
  { exists r, RSelf. rewrite Er. split; auto. }
  cbv zeta. destruct (negb (Z.land (zlen l) 1 =? 0)) eqn:Od; [|exact Slow].
  rewrite land1_odd in Od.
  destruct (WF_app_last l W) as (p & ->).
  pose proof W as (S & B & N & L).
  rewrite zlen_app, zlen_cons, zlen_nil in *. 
  destruct (zlen p + (0 + 1) =? 1) eqn:E1.
  - cbn [bind]. destruct (-2 <=? a) eqn:E2; [|lia]. destruct (-2 =? a) eqn:E3; [lia|].
    assert (p = []) by (destruct p; [auto|rewrite zlen_cons in E1; pose proof (zlen_nonneg p); lia]). subst p.
    simpl app. change (py_set [HIGH] (-1) a) with (Ok (A := list Z) [a]). cbn [bind].
    exists (if b + 1 <? HIGH then [a] ++ [b + 1; HIGH] else [a] ++ [HIGH]), RNone.
    split; auto. destruct (b + 1 <? HIGH) eqn:E4.
    + split; [apply WF_range; lia|]. split; [intros _; repeat constructor; lia|].
      intros c Hc. simpl app. rewrite par_range by lia. cbn [par]. destruct (HIGH <=? c) eqn:E5; [lia|]. simpl. lia.
    + split; [apply WF_intro; [repeat constructor; lia|repeat constructor; lia|exists [a]; auto]|].
      split; [intros _; repeat constructor; lia|].
      intros c Hc. cbn [app par]. destruct (HIGH <=? c) eqn:E5; [lia|]. simpl. lia.
  - destruct (@exists_last _ p) as (q & y & ->); [intros ->; discriminate|].
    replace ((q ++ [y]) ++ [HIGH]) with (q ++ [y; HIGH]) in * by (rewrite <- app_assoc; reflexivity).
    assert (Gy : py_get (q ++ [y; HIGH]) (-2) = Ok y).
    { unfold py_get. rewrite zlen_app. pose proof (zlen_nonneg q).
      replace (zlen [y; HIGH]) with 2 by reflexivity.
      change (-2 <? 0) with true. cbv iota zeta. replace (-2 + (zlen q + 2)) with (zlen q) by lia.
      destruct (zlen q <? 0) eqn:Eq; [lia|]. unfold zlen. rewrite Nat2Z.id, nth_error_app2, Nat.sub_diag by lia. reflexivity. }
    rewrite Gy. cbn [bind].
    assert (Sy : forall u, In u q -> u <= y).
    { apply sorted_app_inv in S as (_ & _ & C). intros; apply C; simpl; auto. }
    assert (Sq : sorted q) by (apply sorted_app_inv in S; apply S).
    rewrite Forall_app in B. destruct B as [Bq By]. inversion By as [|? ? By' _]; subst.
    assert (Zq : Z.odd (zlen q) = true).
    { rewrite zlen_app, zlen_cons, zlen_nil in Od.
      replace (zlen q + (0 + 1) + (0 + 1)) with (zlen q + 1 + 1) in Od by lia.
      rewrite !odd_S, negb_involutive in Od. auto. }
    destruct (y <=? a) eqn:E2.
    2:{ exact Slow. }
    destruct (y =? a) eqn:E3.
    + assert (y = a) by lia. subst y.
      assert (Ey : py_set (q ++ [a; HIGH]) (-2) (b + 1) = Ok (q ++ [b + 1; HIGH])).
      { rewrite <- (py_set_mid q a (b + 1) [HIGH]). unfold py_set. rewrite zlen_app.
        pose proof (zlen_nonneg q). replace (zlen [a; HIGH]) with 2 by reflexivity.
        change (-2 <? 0) with true. cbv iota zeta. replace (-2 + (zlen q + 2)) with (zlen q) by lia.
        destruct (zlen q <? 0) eqn:Eq; [lia|]. rewrite Eq. reflexivity. }
      rewrite Ey. cbn [bind].
      eexists _, RNone. split; [reflexivity|].
      assert (Pq : forall c, c < HIGH -> par (q ++ [b + 1]) c = par (q ++ [a; HIGH]) c || (a <=? c) && (c <=? b)).
      { intros c Hc. rewrite !par_app. cbn [par]. destruct (HIGH <=? c) eqn:E5; [lia|].
        destruct (a <=? c) eqn:E6.
        - rewrite (par_le q c); [|apply Forall_forall; intros u Hu; specialize (Sy u Hu); lia].
          rewrite Zq. destruct (b + 1 <=? c) eqn:E8, (c <=? b) eqn:E9; simpl; lia || reflexivity.
        - destruct (b + 1 <=? c) eqn:E7; [lia|]. destruct (par q c); reflexivity. }
      destruct (b + 1 =? HIGH) eqn:E4.
      * assert (E5 : removelast (q ++ [b + 1; HIGH]) = q ++ [HIGH]).
        { change (q ++ [b + 1; HIGH]) with (q ++ [b + 1] ++ [HIGH]). rewrite app_assoc, removelast_last.
          f_equal. f_equal. lia. }
        rewrite E5. split; [|split].
        -- apply WF_intro; [| |eauto].
           ++ apply sorted_app; auto; [repeat constructor|]. intros u v Hu [<-|[]]. specialize (Sy u Hu). lia.
           ++ apply Forall_app; split; auto. repeat constructor; lia.
        -- intros St. change (q ++ [a; HIGH]) with (q ++ [a] ++ [HIGH]) in St. rewrite app_assoc in St.
           apply strict_app_inv in St as (St & _ & C). apply strict_app_inv in St as (St & _ & C2).
           apply strict_app; auto; [repeat constructor|].
           intros u v Hu [<-|[]]. specialize (Sy u Hu). lia.
        -- intros c Hc. rewrite <- Pq by auto. do 3 f_equal. lia.
      * split; [|split].
        -- change (q ++ [b + 1; HIGH]) with (q ++ [b + 1] ++ [HIGH]). rewrite app_assoc.
           apply WF_intro; [| |eauto].
           ++ apply sorted_app.
              ** apply sorted_app; auto; [repeat constructor|]. intros u v Hu [<-|[]]. specialize (Sy u Hu). lia.
              ** repeat constructor.
              ** intros u v Hu [<-|[]]. apply in_app_or in Hu as [Hu|[<-|[]]]; [|lia]. specialize (Sy u Hu). lia.
           ++ rewrite !Forall_app; repeat split; auto; repeat constructor; lia.
        -- intros St.
           apply strict_app_inv in St as (St & _ & C).
           apply strict_app; auto; [repeat constructor; lia|].
           intros u v Hu [<-|[<-|[]]]; specialize (Sy u Hu); lia.
        -- intros c Hc. change (q ++ [b + 1; HIGH]) with (q ++ [b + 1] ++ [HIGH]). rewrite app_assoc, par_snoc_high by auto.
           apply Pq; auto.
    + assert (Ey : py_set (q ++ [y; HIGH]) (-1) a = Ok (q ++ [y; a])).
      { change (q ++ [y; a]) with (q ++ [y] ++ [a]). rewrite app_assoc.
        rewrite <- (py_set_mid (q ++ [y]) HIGH a []). rewrite <- app_assoc. simpl app.
        unfold py_set. rewrite !zlen_app.
        pose proof (zlen_nonneg q). replace (zlen [y; HIGH]) with 2 by reflexivity. replace (zlen [y]) with 1 by reflexivity.
        change (-1 <? 0) with true. cbv iota zeta. replace (-1 + (zlen q + 2)) with (zlen q + 1) by lia.
        destruct (zlen q + 1 <? 0) eqn:Eq; [lia|]. rewrite Eq. reflexivity. }
      rewrite Ey. cbn [bind].
      eexists _, RNone. split; [reflexivity|].
      rewrite <- !app_assoc. simpl app.
      assert (Pq : forall c, c < HIGH -> par (q ++ [y; a; b + 1]) c = par (q ++ [y; HIGH]) c || (a <=? c) && (c <=? b)).
      { intros c Hc. rewrite !par_app. cbn [par]. destruct (HIGH <=? c) eqn:E5; [lia|].
        destruct (a <=? c) eqn:E6.
        - rewrite (par_le q c); [|apply Forall_forall; intros u Hu; specialize (Sy u Hu); lia].
          rewrite Zq. destruct (y <=? c) eqn:E7; [|lia]. destruct (b + 1 <=? c) eqn:E8, (c <=? b) eqn:E9; simpl; lia || reflexivity.
        - destruct (b + 1 <=? c) eqn:E7; [lia|]. destruct (par q c), (y <=? c); reflexivity. }
      assert (HW : b + 1 < HIGH -> WF (q ++ [y; a; b + 1; HIGH])).
      { intros Hb. change (q ++ [y; a; b + 1; HIGH]) with (q ++ [y; a; b + 1] ++ [HIGH]). rewrite app_assoc.
        apply WF_intro; [| |eauto].
        - rewrite <- app_assoc. apply sorted_app; auto; [repeat constructor; lia|].
          intros u v Hu Hv; specialize (Sy u Hu); simpl in Hv; lia.
        - rewrite !Forall_app; repeat split; auto; repeat constructor; lia. }
      assert (HS : strict (q ++ [y; HIGH]) -> b + 1 <= HIGH -> strict (q ++ [y; a; b + 1])).
      { intros St Hb. apply strict_app_inv in St as (St & _ & C).
        apply strict_app; auto; [repeat constructor; lia|].
        intros u v Hu Hv. specialize (C u y Hu (or_introl eq_refl)). simpl in Hv; lia. }
      destruct (b + 1 <? HIGH) eqn:E4.
      * split; [apply HW; lia|]. split.
        -- intros St. change (q ++ [y; a; b + 1; HIGH]) with (q ++ [y; a; b + 1] ++ [HIGH]). rewrite app_assoc.
           apply ss_lt_snoc; [apply HS; auto; lia|].
           apply Forall_app; split; [|repeat constructor; lia].
           apply Forall_forall. intros u Hu. specialize (Sy u Hu). lia.
        -- intros c Hc. change (q ++ [y; a; b + 1; HIGH]) with (q ++ [y; a; b + 1] ++ [HIGH]).
           rewrite app_assoc, par_snoc_high by auto. apply Pq; auto.
      * assert (Eb : [y; a; b + 1] = [y; a; HIGH]) by (do 3 f_equal; lia).
        rewrite Eb in Pq, HS. split; [|split].
        -- change (q ++ [y; a; HIGH]) with (q ++ [y; a] ++ [HIGH]). rewrite app_assoc.
           apply WF_intro; [| |eauto].
           ++ rewrite <- app_assoc. apply sorted_app; auto; [repeat constructor; lia|].
              intros u v Hu Hv; specialize (Sy u Hu); simpl in Hv; lia.
           ++ rewrite !Forall_app; repeat split; auto; repeat constructor; lia.
        -- intros St. apply HS; [exact St|lia].
        -- intros c Hc. apply Pq; auto.
Qed.
