(** * Proofs about the UnicodeSet model: invariant, search and parity of the
    inversion list. *)
From Coq Require Import ZArith List Bool Lia Sorted ZifyBool.
From Verif Require Import Py UnicodeSet.
Import ListNotations.
Open Scope Z_scope.

Ltac Zify.zify_post_hook ::= Z.to_euclidean_division_equations.

Notation sorted := (StronglySorted Z.le).

(** The representation invariant of reachable sets. *)
Definition WF (l : uset) : Prop :=
  sorted l /\ Forall (fun x => 0 <= x <= HIGH) l /\ l <> [] /\ last l 0 = HIGH.

(** Membership read off the list: parity of the number of entries <= c. *)
Fixpoint par (l : list Z) (c : Z) : bool :=
  match l with [] => false | x :: r => xorb (x <=? c) (par r c) end.

Lemma par_app l1 l2 c : par (l1 ++ l2) c = xorb (par l1 c) (par l2 c).
Proof.
  induction l1; simpl; [destruct (par l2 c); auto|]. rewrite IHl1, xorb_assoc. reflexivity.
Qed.

Lemma par_gt l c : Forall (fun x => c < x) l -> par l c = false.
Proof.
  induction 1; simpl; [reflexivity|]. rewrite IHForall.
  destruct (x <=? c) eqn:E; [lia|reflexivity].
Qed.

Lemma odd_S n : Z.odd (n + 1) = negb (Z.odd n).
Proof. rewrite Z.add_1_r, Z.odd_succ, <- Z.negb_odd. reflexivity. Qed.

Lemma par_le l c : Forall (fun x => x <= c) l -> par l c = Z.odd (zlen l).
Proof.
  induction 1; [reflexivity|]. cbn [par]. rewrite IHForall, zlen_cons, odd_S.
  destruct (x <=? c) eqn:E; [destruct (Z.odd (zlen l)); reflexivity|lia].
Qed.

Lemma land1_odd i : negb (Z.land i 1 =? 0) = Z.odd i.
Proof.
  change 1 with (Z.ones 1). rewrite Z.land_ones by lia. change (2 ^ 1) with 2.
  rewrite Zmod_odd. destruct (Z.odd i); reflexivity.
Qed.

Definition znth (l : list Z) (i : Z) : Z := nth (Z.to_nat i) l 0.

Lemma py_get_znth l i : 0 <= i < zlen l -> py_get l i = Ok (znth l i).
Proof.
  intros H. rewrite py_get_nonneg by lia. unfold znth.
  rewrite (nth_error_nth' l 0); [reflexivity|]. unfold zlen in H. lia.
Qed.

Lemma znth_split l i : 0 <= i < zlen l ->
  exists p s, l = p ++ znth l i :: s /\ zlen p = i.
Proof.
  intros H. unfold zlen in *.
  destruct (nth_split l 0 (n := Z.to_nat i)) as (p & s & E & L); [lia|].
  exists p, s. split; [exact E|lia].
Qed.

Lemma sorted_app_inv l1 l2 : sorted (l1 ++ l2) ->
  sorted l1 /\ sorted l2 /\ forall x y, In x l1 -> In y l2 -> x <= y.
Proof.
  induction l1; simpl; intros H.
  - repeat split; auto using SSorted_nil. intros ? ? [].
  - inversion H as [|? ? Hs Hf]; subst. destruct (IHl1 Hs) as (A & B & C).
    rewrite Forall_app in Hf. destruct Hf as [F1 F2].
    repeat split; auto.
    + constructor; auto.
    + intros x y [->|Hx] Hy; auto. rewrite Forall_forall in F2. auto.
Qed.

Lemma sorted_app l1 l2 : sorted l1 -> sorted l2 ->
  (forall x y, In x l1 -> In y l2 -> x <= y) -> sorted (l1 ++ l2).
Proof.
  induction 1; simpl; intros S2 H2; auto.
  constructor.
  - apply IHStronglySorted; auto.
  - apply Forall_app; split; auto. apply Forall_forall; auto.
Qed.

Lemma sorted_znth l i j : sorted l -> 0 <= i <= j -> j < zlen l -> znth l i <= znth l j.
Proof.
  intros S Hij Hj. destruct (Z.eq_dec i j); [subst; lia|].
  destruct (znth_split l j) as (p & s & E & L); [lia|].
  pose proof S as S'. rewrite E in S'. apply sorted_app_inv in S' as (_ & _ & C).
  apply C; [|left; reflexivity].
  unfold znth at 1. rewrite E. rewrite app_nth1; [apply nth_In|]; unfold zlen in *; lia.
Qed.

Lemma shiftr1 x : Z.shiftr x 1 = x / 2.
Proof. rewrite Z.shiftr_div_pow2 by lia. reflexivity. Qed.

Lemma find_loop_spec l cp : sorted l -> forall fuel lo hi,
  0 <= lo < hi -> hi < zlen l -> hi - lo <= Z.of_nat fuel ->
  znth l lo <= cp -> cp < znth l hi ->
  exists i, find_loop fuel l cp lo hi = Ok i /\ lo < i <= hi /\
            znth l (i - 1) <= cp /\ cp < znth l i.
Proof.
  intros S. induction fuel as [|k IH]; intros lo hi H1 H2 H3 H4 H5; [lia|].
  cbn [find_loop]. cbv zeta. rewrite shiftr1.
  destruct ((lo + hi) / 2 =? lo) eqn:E.
  - exists hi. assert (hi = lo + 1) by lia. subst hi.
    replace (lo + 1 - 1) with lo by lia. repeat split; auto; lia.
  - assert (lo < (lo + hi) / 2 < hi) by lia.
    rewrite py_get_znth by lia. cbn [bind].
    destruct (cp <? znth l ((lo + hi) / 2)) eqn:E2.
    + destruct (IH lo ((lo + hi) / 2)) as (i & A & B & C & D); try lia. exists i; repeat split; auto; lia.
    + destruct (IH ((lo + hi) / 2) hi) as (i & A & B & C & D); try lia. exists i; repeat split; auto; lia.
Qed.

(** [_findCodePoint] on a sorted list whose last entry is HIGH. *)
Lemma find_spec l cp : WF l -> cp < HIGH ->
  exists i, findCodePoint l cp = Ok i /\ 0 <= i < zlen l /\
            (0 < i -> znth l (i - 1) <= cp) /\ cp < znth l i.
Proof.
  intros (S & B & NE & La) Hcp.
  assert (Hlen : 0 < zlen l) by (destruct l; [congruence|rewrite zlen_cons; pose proof (zlen_nonneg l); lia]).
  assert (Hlast : znth l (zlen l - 1) = HIGH).
  { rewrite <- La. unfold znth, zlen.
    replace (Z.to_nat (Z.of_nat (length l) - 1)) with (length l - 1)%nat by lia.
    clear. induction l as [|x [|y r] IH]; auto.
    change (last (x :: y :: r) 0) with (last (y :: r) 0). rewrite <- IH.
    simpl length. replace (S (S (length r)) - 1)%nat with (S (length r)) by lia.
    replace (S (length r) - 1)%nat with (length r) by lia. reflexivity. }
  unfold findCodePoint. rewrite py_get_znth by lia. cbn [bind].
  destruct (cp <? znth l 0) eqn:E0.
  - exists 0. repeat split; try lia.
  - destruct (0 >=? zlen l - 1) eqn:E1.
    + exists (zlen l - 1). assert (zlen l = 1) by lia. repeat split; try lia.
    + rewrite py_get_znth by lia. cbn [bind].
      destruct (cp >=? znth l (zlen l - 1 - 1)) eqn:E2.
      * exists (zlen l - 1). repeat split; try lia.
      * destruct (find_loop_spec l cp S (length l) 0 (zlen l - 1)) as (i & A & C & D & F);
          try lia.
        { unfold zlen; lia. }
        exists i. repeat split; auto; lia.
Qed.

Lemma WF_split l cp : WF l -> cp < HIGH ->
  exists p x s, l = p ++ x :: s /\ findCodePoint l cp = Ok (zlen p) /\
    Forall (fun y => y <= cp) p /\ cp < x /\ Forall (fun y => cp < y) s.
Proof.
  intros W H. destruct (find_spec l cp W H) as (i & A & C & D & F).
  destruct (znth_split l i C) as (p & s & E & L).
  exists p, (znth l i), s. subst i. destruct W as (S & _).
  repeat split; auto.
  - apply Forall_forall. intros y Hy.
    destruct (In_nth p y 0 Hy) as (n & Hn & <-).
    assert (0 < zlen p) by (unfold zlen; lia).
    specialize (D H0). etransitivity; [|exact D].
    replace (nth n p 0) with (znth l (Z.of_nat n)).
    + apply sorted_znth; auto; unfold zlen in *; lia.
    + unfold znth. rewrite E, Nat2Z.id. apply app_nth1. lia.
  - rewrite E in S. apply sorted_app_inv in S as (_ & S & _). inversion S; subst.
    eapply Forall_impl; [|eassumption]. intros; lia.
Qed.

Lemma find_par l cp : WF l -> cp < HIGH ->
  exists i, findCodePoint l cp = Ok i /\ Z.odd i = par l cp.
Proof.
  intros W H. destruct (WF_split l cp W H) as (p & x & s & E & F & A & B & C).
  exists (zlen p). split; auto. rewrite E, par_app, (par_le p) by auto.
  rewrite par_gt by (constructor; auto). destruct (Z.odd (zlen p)); reflexivity.
Qed.

Lemma contains_par l cp : WF l -> cp < HIGH -> contains l cp = Ok (par l cp).
Proof.
  intros W H. destruct (find_par l cp W H) as (i & A & B).
  unfold contains. rewrite A. cbn [bind]. rewrite land1_odd, B. reflexivity.
Qed.

(** ** Inserting one code point *)

Lemma pin_id cp : 0 <= cp < HIGH -> pin cp = cp.
Proof. unfold pin, LOW. intros. destruct (cp <? 0) eqn:E; [lia|]. destruct (HIGH - 1 <? cp) eqn:E2; lia. Qed.

Lemma py_bound_in n i : 0 <= i <= n -> py_bound n i = i.
Proof. unfold py_bound. intros. destruct (i <? 0) eqn:E; lia. Qed.

Lemma set_slice_mid {A} (p m s v : list A) :
  py_set_slice (p ++ m ++ s) (zlen p) (zlen p + zlen m) v = p ++ v ++ s.
Proof.
  unfold py_set_slice. rewrite !zlen_app.
  pose proof (zlen_nonneg p). pose proof (zlen_nonneg m). pose proof (zlen_nonneg s).
  rewrite !py_bound_in by lia. rewrite Z.max_r by lia.
  replace (Z.to_nat (zlen p)) with (length p) by (unfold zlen; lia).
  replace (Z.to_nat (zlen p + zlen m)) with (length (p ++ m))
    by (rewrite app_length; unfold zlen; lia).
  rewrite firstn_app, Nat.sub_diag, firstn_O, app_nil_r, firstn_all.
  rewrite (app_assoc p m s), (skipn_app _ (p ++ m) s), skipn_all, Nat.sub_diag. reflexivity.
Qed.

Lemma last_app_cons {A} (p : list A) x s d : last (p ++ x :: s) d = last (x :: s) d.
Proof.
  induction p as [|y p IH]; [reflexivity|].
  simpl. destruct (p ++ x :: s) eqn:E; [destruct p; discriminate|]. exact IH.
Qed.

Lemma WF_intro l : sorted l -> Forall (fun x => 0 <= x <= HIGH) l ->
  (exists p, l = p ++ [HIGH]) -> WF l.
Proof.
  intros S B (p & ->). repeat split; auto.
  - destruct p; discriminate.
  - rewrite last_app_cons. reflexivity.
Qed.

Lemma WF_app_last l : WF l -> exists p, l = p ++ [HIGH].
Proof.
  intros (_ & _ & NE & La). rewrite (app_removelast_last 0 NE), La. eauto.
Qed.

Lemma in_le (P : Z -> Prop) l x : Forall P l -> In x l -> P x.
Proof. rewrite Forall_forall. auto. Qed.


Lemma sorted_cons x l : sorted l -> Forall (fun y => x <= y) l -> sorted (x :: l).
Proof. intros; constructor; auto. Qed.

Lemma last_cons_ne x l : l <> [] -> last (x :: l) 0 = last l 0.
Proof. destruct l; [congruence|reflexivity]. Qed.

Lemma last_cons_high x l : last (x :: l) 0 = HIGH -> x <> HIGH -> l <> [] /\ last l 0 = HIGH.
Proof. destruct l; simpl; intros; [congruence|]. split; [discriminate|auto]. Qed.

Lemma last_snoc (l : list Z) x : last (l ++ [x]) 0 = x.
Proof. rewrite last_app_cons. reflexivity. Qed.

Lemma add_spec l cp : WF l -> 0 <= cp < HIGH ->
  exists l', add l cp = Ok l' /\ WF l' /\
             forall c, c < HIGH -> par l' c = (par l c || (c =? cp)).
Proof.
  intros W H. destruct (WF_split l cp W ltac:(lia)) as (p & x & s & E & F & A & B & C).
  destruct (find_par l cp W ltac:(lia)) as (i & Fi & Pi).
  assert (i = zlen p) by congruence. subst i.
  unfold add. rewrite pin_id, F by auto. cbn [bind]. rewrite land1_odd.
  destruct (Z.odd (zlen p)) eqn:O.
  - exists l. split; [reflexivity|]. split; [exact W|]. intros c Hc.
    destruct (c =? cp) eqn:Ec; [|rewrite orb_false_r; reflexivity].
    assert (c = cp) by lia. subst c. rewrite <- Pi. reflexivity.
  - pose proof W as (S & Bd & NE & La). rewrite E in S, Bd, La.
    apply sorted_app_inv in S as (Sp & Ss & Cr).
    inversion Ss as [|? ? Ss' Fs]; subst.
    rewrite Forall_app in Bd. destruct Bd as [Bp Bs]. inversion Bs as [|? ? Bx Bs']; subst.
    rewrite last_app_cons in La.
    assert (K : forall l', (forall c, c < HIGH -> par l' c = xorb (par (p ++ x :: s) c) (c =? cp)) ->
       forall c, c < HIGH -> par l' c = (par (p ++ x :: s) c || (c =? cp))).
    { intros l' Hl' c Hc. rewrite Hl' by auto. destruct (c =? cp) eqn:Ec.
      - assert (c = cp) by lia. subst c. rewrite <- Pi. reflexivity.
      - rewrite xorb_false_r, orb_false_r. reflexivity. }
    assert (EQ : forall c, xorb (cp <=? c) (cp + 1 <=? c) = (c =? cp)).
    { intros c. destruct (cp <=? c) eqn:E1, (cp + 1 <=? c) eqn:E2, (c =? cp) eqn:E3; lia || reflexivity. }
    assert (Bp' : Forall (fun y => 0 <= y <= cp) p).
    { apply Forall_forall. intros y Hy. pose proof (in_le _ _ _ Bp Hy). pose proof (in_le _ _ _ A Hy).
      simpl in *. lia. }
    clear Bp A Cr.
    pose proof (zlen_nonneg p) as Zp.
    rewrite py_get_mid. cbn [bind].
    destruct (cp =? x - 1) eqn:Ex.
    + assert (x = cp + 1) by lia. subst x.
      rewrite py_set_mid. cbn [bind].
      set (l2 := if cp =? HIGH - 1 then (p ++ cp :: s) ++ [HIGH] else p ++ cp :: s).
      assert (El2 : exists s2, l2 = p ++ cp :: s2 /\ s2 <> [] /\ last s2 0 = HIGH /\
                 sorted s2 /\ Forall (fun y => cp < y <= HIGH) s2 /\
                 forall c, c < HIGH -> par s2 c = par s c).
      { assert (Hs : Forall (fun y => cp < y <= HIGH) s).
        { apply Forall_forall. intros y Hy.
          pose proof (in_le _ _ _ Bs' Hy). pose proof (in_le _ _ _ C Hy). simpl in *. lia. }
        unfold l2. destruct (cp =? HIGH - 1) eqn:Eh.
        - exists (s ++ [HIGH]). split; [rewrite <- app_assoc; reflexivity|].
          split; [destruct s; discriminate|]. split; [apply last_snoc|].
          split; [|split].
          + apply sorted_app; auto using sorted_cons, SSorted_nil.
            intros a b Ha [<-|[]]. pose proof (in_le _ _ _ Hs Ha). simpl in *. lia.
          + apply Forall_app. split; auto. constructor; auto. lia.
          + intros c Hc. rewrite par_app. simpl. destruct (HIGH <=? c) eqn:E1; [lia|].
            destruct (par s c); reflexivity.
        - apply last_cons_high in La as [N La]; [|lia].
          exists s. repeat (split; auto). }
      destruct El2 as (s2 & -> & N2 & L2 & S2 & B2 & P2).
      assert (Scp : sorted (cp :: s2)).
      { apply sorted_cons; auto. eapply Forall_impl; [|exact B2]. simpl. intros; lia. }
      assert (G : WF (p ++ cp :: s2) /\ forall c, c < HIGH ->
         par (p ++ cp :: s2) c = par (p ++ cp + 1 :: s) c || (c =? cp)).
      { split.
        - repeat split.
          + apply sorted_app; auto. intros a b Ha [<-|Hb].
            * pose proof (in_le _ _ _ Bp' Ha); simpl in *; lia.
            * pose proof (in_le _ _ _ Bp' Ha). pose proof (in_le _ _ _ B2 Hb). simpl in *; lia.
          + apply Forall_app. split.
            * eapply Forall_impl; [|exact Bp']; simpl; intros; lia.
            * constructor; [lia|]. eapply Forall_impl; [|exact B2]; simpl; intros; lia.
          + destruct p; discriminate.
          + rewrite last_app_cons, last_cons_ne; auto.
        - apply K. intros c Hc. rewrite !par_app. cbn [par]. rewrite P2, <- EQ by auto.
          destruct (par p c), (cp <=? c), (cp + 1 <=? c), (par s c); reflexivity. }
      destruct (zlen p >? 0) eqn:Ep.
      * destruct (@exists_last _ p) as (p' & y & ->); [intros ->; discriminate|].
        replace (zlen (p' ++ [y]) - 1) with (zlen p') by (rewrite zlen_app, zlen_cons, zlen_nil; lia).
        assert (Gy : py_get ((p' ++ [y]) ++ cp :: s2) (zlen p') = Ok y)
          by (rewrite <- app_assoc; apply py_get_mid).
        rewrite Gy. cbn [bind].
        destruct (cp =? y) eqn:Ey.
        -- assert (y = cp) by lia. subst y. exists (p' ++ s2).
           split.
           { f_equal. replace (zlen (p' ++ [cp]) + 1) with (zlen p' + zlen [cp; cp])
               by (rewrite zlen_app, !zlen_cons, zlen_nil; lia).
             rewrite <- app_assoc. change ([cp] ++ cp :: s2) with ([cp; cp] ++ s2).
             rewrite set_slice_mid. reflexivity. }
           destruct G as [(Sg & Bg & Ng & Lg) Pg]. split.
           ++ rewrite <- app_assoc in Sg. apply sorted_app_inv in Sg as (S1 & S2' & C2).
              rewrite Forall_app in Bp'. repeat split.
              ** apply sorted_app; auto. intros; apply C2; auto. right; right; auto.
              ** apply Forall_app. split.
                 --- eapply Forall_impl; [|apply Bp']; simpl; intros; lia.
                 --- eapply Forall_impl; [|exact B2]; simpl; intros; lia.
              ** destruct p'; [assumption|discriminate].
              ** destruct s2 as [|z s2]; [congruence|]. rewrite last_app_cons. exact L2.
           ++ intros c Hc. rewrite <- Pg by auto. rewrite !par_app. cbn [par].
              destruct (par p' c), (cp <=? c), (par s2 c); reflexivity.
        -- eexists; split; [reflexivity|]. exact G.
      * eexists; split; [reflexivity|]. exact G.
    + assert (Hx : cp + 1 < x) by lia.
      assert (Ins : exists l', Ok (py_set_slice (p ++ x :: s) (zlen p) (zlen p) [cp; cp + 1]) = Ok l' /\
         WF l' /\ forall c, c < HIGH -> par l' c = par (p ++ x :: s) c || (c =? cp)).
      { exists (p ++ [cp; cp + 1] ++ x :: s). split.
        - f_equal. replace (zlen p) with (zlen p + zlen (@nil Z)) at 2 by (rewrite zlen_nil; lia).
          change (p ++ x :: s) with (p ++ [] ++ x :: s) at 1. apply set_slice_mid.
        - split.
          + repeat split.
            * apply sorted_app; auto.
              -- simpl. apply sorted_cons; [apply sorted_cons; auto|].
                 ++ constructor; [lia|]. eapply Forall_impl; [|exact C]; simpl; intros; lia.
                 ++ constructor; [lia|]. constructor; [lia|]. eapply Forall_impl; [|exact C]; simpl; intros; lia.
              -- intros a b Ha Hb. pose proof (in_le _ _ _ Bp' Ha). simpl in Hb, H0.
                 destruct Hb as [<-|[<-|[<-|Hb]]]; try lia.
                 pose proof (in_le _ _ _ C Hb). simpl in *. lia.
            * apply Forall_app. split; [eapply Forall_impl; [|exact Bp']; simpl; intros; lia|].
              simpl. constructor; [lia|]. constructor; [lia|]. auto.
            * destruct p; discriminate.
            * simpl. rewrite last_app_cons. exact La.
          + apply K. intros c Hc. rewrite !par_app. cbn [par]. rewrite <- EQ.
            destruct (par p c), (cp <=? c), (cp + 1 <=? c), (x <=? c), (par s c); reflexivity. }
      destruct (zlen p >? 0) eqn:Ep; [|exact Ins].
      destruct (@exists_last _ p) as (p' & y & Epl); [intros ->; discriminate|].
      assert (Z1 : zlen p - 1 = zlen p') by (rewrite Epl, zlen_app, zlen_cons, zlen_nil; lia).
      assert (Gy : py_get (p ++ x :: s) (zlen p - 1) = Ok y).
      { rewrite Z1, Epl, <- app_assoc. apply py_get_mid. }
      rewrite Gy. cbn [bind].
      destruct (cp =? y) eqn:Ey; [|exact Ins].
      assert (y = cp) by lia. subst y. clear Ins.
      exists (p' ++ cp + 1 :: x :: s). split.
      { rewrite Z1, Epl, <- app_assoc. apply py_set_mid. }
      subst p. rewrite Forall_app in Bp'. destruct Bp' as [Bp' _].
      apply sorted_app_inv in Sp as (Sp & _ & _).
      split.
      * repeat split.
        -- apply sorted_app; auto.
           ++ apply sorted_cons; auto. constructor; [lia|]. eapply Forall_impl; [|exact C]; simpl; intros; lia.
           ++ intros a b Ha Hb. pose proof (in_le _ _ _ Bp' Ha). simpl in Hb, H0.
              destruct Hb as [<-|[<-|Hb]]; try lia.
              pose proof (in_le _ _ _ C Hb). simpl in *. lia.
        -- apply Forall_app. split; [eapply Forall_impl; [|exact Bp']; simpl; intros; lia|].
           constructor; [lia|]. auto.
        -- destruct p'; discriminate.
        -- rewrite last_app_cons. exact La.
      * apply K. intros c Hc. rewrite !par_app. cbn [par]. rewrite <- EQ.
        destruct (par p' c), (cp <=? c), (cp + 1 <=? c), (x <=? c), (par s c); reflexivity.
Qed.
