(** * Run-length view of a table of code points.

    [runs] turns a block structured table into the list of its maximal constant
    ranges, once and for all; statements about every code point of a shipped table
    are then checked range by range. *)
From Coq Require Import ZArith List Bool Lia ZifyBool.
From Verif Require Import Py.
Import ListNotations.
Open Scope Z_scope.
Ltac Zify.zify_post_hook ::= Z.to_euclidean_division_equations.

(** [runs_ok g rs n]: every code point below [n] is in a range of [rs], and every
    range holds the value of all its code points below [n] *)
Definition covers (rs : list (Z * Z * Z)) (n : Z) : Prop :=
  forall x, 0 <= x < n -> exists a b v, In (a, b, v) rs /\ a <= x < b.
Definition holds_on (g : Z -> res Z) (rs : list (Z * Z * Z)) (n : Z) : Prop :=
  forall a b v x, In (a, b, v) rs -> a <= x < b -> 0 <= x < n -> g x = Ok v.
Definition within (rs : list (Z * Z * Z)) (n : Z) : Prop := forall a b v, In (a, b, v) rs -> 0 <= a /\ b <= n.
Definition runs_ok (g : Z -> res Z) (rs : list (Z * Z * Z)) (n : Z) : Prop := covers rs n /\ holds_on g rs n.

(** add [n] code points with value [v] at [c]; newest range first *)
Definition push (c n v : Z) (acc : list (Z * Z * Z)) : list (Z * Z * Z) :=
  match acc with
  | (a, b, w) :: r => if w =? v then (a, c + n, w) :: r else (c, c + n, v) :: acc
  | [] => [(c, c + n, v)]
  end.

Section Runs.
  Variable B : Z.                 (* block length *)
  Variable addr : Z -> res Z.     (* address of a block *)
  Variable rd : Z -> res Z.
  Definition block_get (c : Z) : res Z := let* a := addr (c / B) in rd (a + c mod B).

  Fixpoint scan (n : nat) (c i : Z) (acc : list (Z * Z * Z)) : res (list (Z * Z * Z)) :=
    match n with
    | O => Ok acc
    | S m => let* v := rd i in scan m (c + 1) (i + 1) (push c 1 v acc)
    end.

  (** blocks [k], [k+1], ...; a block equal to its predecessor that lies in one range is not read again *)
  Fixpoint blocks (n : nat) (k last : Z) (acc : list (Z * Z * Z)) : res (list (Z * Z * Z)) :=
    match n with
    | O => Ok acc
    | S m =>
        let* a := addr k in
        let skip := match acc with (s, e, v) :: _ => (a =? last) && (s <=? B * (k - 1)) | [] => false end in
        let* acc' := match acc with
          | (s, e, v) :: _ => if skip then Ok (push (B * k) B v acc) else scan (Z.to_nat B) (B * k) a acc
          | [] => scan (Z.to_nat B) (B * k) a acc
          end in
        blocks m (k + 1) a acc'
    end.
  Definition runs (n : Z) : res (list (Z * Z * Z)) := blocks (Z.to_nat n) 0 (-1) [].

  Hypothesis Bpos : 0 < B.

  Definition ACC (acc : list (Z * Z * Z)) (c : Z) : Prop :=
    (covers acc c /\ forall a b v x, In (a, b, v) acc -> a <= x < b -> block_get x = Ok v) /\ within acc c /\
    match acc with (a, b, _) :: _ => b = c /\ a < c /\ 0 <= a | [] => c = 0 end.

  Lemma push_ok acc c n v : ACC acc c -> 0 <= c -> 0 < n -> (forall x, c <= x < c + n -> block_get x = Ok v) -> ACC (push c n v acc) (c + n).
  Proof using.
    clear Bpos. intros [[C H] [W E]] Hc Hn Hv. unfold push. destruct acc as [|[[a b] w] r].
    - split; [split|].
      + intros x Hx. exists c, (c + n), v. split; [left; auto|lia].
      + intros a b u x [Q|[]] Hx. injection Q as <- <- <-. apply Hv. lia.
      + split; [|lia]. intros a b u [Q|[]]. injection Q as <- <- <-. lia.
    - destruct E as [-> [E1 E2]]. destruct (w =? v) eqn:WV.
      + apply Z.eqb_eq in WV. subst w. split; [split|].
        * intros x Hx. destruct (Z_lt_le_dec x c) as [Q|Q].
          -- destruct (C x ltac:(lia)) as (p & q & u & Hin & Hr). destruct Hin as [Hin|Hin].
             ++ injection Hin as <- <- <-. exists a, (c + n), v. split; [left; auto|lia].
             ++ exists p, q, u. split; [right; auto|lia].
          -- exists a, (c + n), v. split; [left; auto|lia].
        * intros p q u x [Q|Q] Hx.
          -- injection Q as <- <- <-. destruct (Z_lt_le_dec x c); [apply (H a c v x); [left; auto|lia]|apply Hv; lia].
          -- apply (H p q u x); [right; auto|auto].
        * split; [|lia]. intros p q u [Q|Q]; [injection Q as <- <- <-; lia|]. specialize (W p q u (or_intror Q)). lia.
      + split; [split|].
        * intros x Hx. destruct (Z_lt_le_dec x c) as [Q|Q].
          -- destruct (C x ltac:(lia)) as (p & q & u & Hin & Hr). exists p, q, u. split; [right; auto|auto].
          -- exists c, (c + n), v. split; [left; auto|lia].
        * intros p q u x [Q|Q] Hx.
          -- injection Q as <- <- <-. apply Hv. lia.
          -- apply (H p q u x Q Hx).
        * split; [|lia]. intros p q u [Q|Q]; [injection Q as <- <- <-; lia|]. specialize (W p q u Q). lia.
  Qed.

  Lemma scan_ok n : forall c i acc acc', ACC acc c -> 0 <= c -> (forall j, 0 <= j < Z.of_nat n -> block_get (c + j) = rd (i + j)) ->
    scan n c i acc = Ok acc' -> ACC acc' (c + Z.of_nat n).
  Proof using.
    clear Bpos. induction n as [|n IH]; intros c i acc acc' HA Hc Hg H.
    - cbn in H. injection H as <-. rewrite Z.add_0_r. exact HA.
    - cbn [scan] in H. destruct (rd i) as [v|] eqn:E; [|discriminate]. cbn [bind] in H.
      replace (c + Z.of_nat (S n)) with (c + 1 + Z.of_nat n) by lia. eapply IH; [| |clear H|exact H].
      + apply push_ok; auto; [lia|]. intros x Hx. replace x with (c + 0) by lia. rewrite Hg by lia. rewrite Z.add_0_r. exact E.
      + lia.
      + intros j Hj. replace (c + 1 + j) with (c + (1 + j)) by lia. rewrite Hg by lia. f_equal. lia.
  Qed.

  Lemma block_at k j a : 0 <= j < B -> addr k = Ok a -> block_get (B * k + j) = rd (a + j).
  Proof using Bpos.
    intros Hj Ha. unfold block_get. replace ((B * k + j) / B) with k.
    - rewrite Ha. cbn [bind]. f_equal. f_equal. rewrite Z.add_comm, Z.mul_comm, Z_mod_plus_full. apply Z.mod_small. lia.
    - rewrite Z.mul_comm, Z.div_add_l by lia. rewrite Z.div_small by lia. lia.
  Qed.

  Lemma blocks_ok n : forall k last acc acc', ACC acc (B * k) -> 0 <= k ->
    (0 < k -> addr (k - 1) = Ok last) ->
    blocks n k last acc = Ok acc' -> ACC acc' (B * (k + Z.of_nat n)).
  Proof using Bpos.
    induction n as [|n IH]; intros k last acc acc' HA Hk HL H.
    - cbn in H. injection H as <-. rewrite Z.add_0_r. exact HA.
    - cbn [blocks] in H. destruct (addr k) as [a|] eqn:Ea; [|discriminate]. cbn [bind] in H.
      assert (G : forall acc2, ACC acc2 (B * (k + 1)) -> blocks n (k + 1) a acc2 = Ok acc' -> ACC acc' (B * (k + Z.of_nat (S n)))).
      { intros acc2 A2 H2. replace (k + Z.of_nat (S n)) with (k + 1 + Z.of_nat n) by lia.
        eapply IH; eauto; [lia|]. intros _. replace (k + 1 - 1) with k by lia. exact Ea. }
      assert (SC : forall acc2, scan (Z.to_nat B) (B * k) a acc = Ok acc2 -> ACC acc2 (B * (k + 1))).
      { intros acc2 S2. replace (B * (k + 1)) with (B * k + Z.of_nat (Z.to_nat B)) by lia.
        eapply scan_ok; eauto; [apply Z.mul_nonneg_nonneg; lia|].
        intros j Hj. apply block_at; auto. lia. }
      destruct acc as [|[[s e] v] r].
      + destruct (scan (Z.to_nat B) (B * k) a []) as [acc2|] eqn:S2; [|discriminate]. cbn [bind] in H. eapply G; eauto.
      + destruct ((a =? last) && (s <=? B * (k - 1))) eqn:SK.
        * cbn [bind] in H. eapply G; [|exact H]. replace (B * (k + 1)) with (B * k + B) by lia.
          assert (0 <= B * k) by (apply Z.mul_nonneg_nonneg; lia).
          apply push_ok; auto. intros x Hx. destruct HA as [[C HO] [_ [-> [E1 E2]]]].
          assert (K0 : 0 < k) by (destruct (Z.eq_dec k 0) as [->|]; lia).
          assert (a = last) by lia. subst last.
          replace x with (B * k + (x - B * k)) by lia. rewrite (block_at k (x - B * k) a) by (auto; lia).
          rewrite <- (block_at (k - 1) (x - B * k) a) by (auto; lia).
          apply (HO s (B * k) v); [left; auto|]. lia.
        * destruct (scan (Z.to_nat B) (B * k) a ((s, e, v) :: r)) as [acc2|] eqn:S2; [|discriminate]. cbn [bind] in H. eapply G; eauto.
  Qed.

  Theorem runs_correct n rs : 0 <= n -> runs n = Ok rs -> runs_ok block_get rs (B * n) /\ within rs (B * n).
  Proof using Bpos.
    intros Hn H. unfold runs in H.
    assert (A0 : ACC [] (B * 0)).
    { split; [split|split; [|lia]]; [intros x Hx; lia|intros a b v x []|intros a b v []]. }
    pose proof (blocks_ok _ 0 (-1) [] rs A0 ltac:(lia) ltac:(lia) H) as [[R R2] [W _]].
    rewrite Z2Nat.id, Z.add_0_l in R, W by lia. split; [split|exact W]; [exact R|].
    intros a b v x Hin Hx _. exact (R2 a b v x Hin Hx).
  Qed.
End Runs.

(** statements for every code point from statements for every range *)
Lemma by_runs g rs n (P : Z -> Z -> Prop) : runs_ok g rs n ->
  (forall a b v, In (a, b, v) rs -> forall c, a <= c < b -> P c v) ->
  forall c, 0 <= c < n -> exists v, g c = Ok v /\ P c v.
Proof.
  intros [C H] HP c Hc. destruct (C c Hc) as (a & b & v & Hin & Hr). exists v. split; [eapply H; eauto|eapply HP; eauto].
Qed.

(** the elements of a range *)
Fixpoint zfrom (n : nat) (a : Z) : list Z := match n with O => [] | S m => a :: zfrom m (a + 1) end.
Lemma zfrom_spec n : forall a c, In c (zfrom n a) <-> a <= c < a + Z.of_nat n.
Proof. induction n as [|n IH]; intros a c; cbn [zfrom In]; [lia|]. rewrite IH. lia. Qed.
Definition zrange (a b : Z) : list Z := zfrom (Z.to_nat (b - a)) a.
Lemma zrange_spec a b c : In c (zrange a b) <-> a <= c < b.
Proof. unfold zrange. rewrite zfrom_spec. lia. Qed.

(** a check per range that either settles the whole range or is repeated for each code point *)
Definition check_runs (whole : Z -> Z -> Z -> bool) (each : Z -> Z -> bool) (rs : list (Z * Z * Z)) : bool :=
  forallb (fun r => let '(a, b, v) := r in if whole a b v then true else forallb (fun c => each c v) (zrange a b)) rs.
Lemma check_runs_ok whole each rs (P : Z -> Z -> Prop) : check_runs whole each rs = true ->
  (forall a b v c, whole a b v = true -> a <= c < b -> P c v) ->
  (forall c v, each c v = true -> P c v) ->
  forall a b v, In (a, b, v) rs -> forall c, a <= c < b -> P c v.
Proof.
  intros H HW HE a b v Hin c Hc. unfold check_runs in H. rewrite forallb_forall in H. specialize (H _ Hin). cbv beta iota in H.
  destruct (whole a b v) eqn:W; [eapply HW; eauto|]. rewrite forallb_forall in H. apply HE, H, zrange_spec. exact Hc.
Qed.

(** ** Two tables side by side *)
Fixpoint merge (fuel : nat) (p : Z) (l1 l2 : list (Z * Z * Z)) : list (Z * Z * (Z * Z)) :=
  match fuel, l1, l2 with
  | S m, (a1, b1, v1) :: r1, (a2, b2, v2) :: r2 =>
      if (a1 <=? p) && (a2 <=? p) then
        let e := Z.min b1 b2 in
        (p, e, (v1, v2)) :: merge m e (if b1 <=? e then r1 else l1) (if b2 <=? e then r2 else l2)
      else []
  | _, _, _ => []
  end.
Fixpoint tiles {A} (p : Z) (ms : list (Z * Z * A)) (n : Z) : bool :=
  match ms with [] => n <=? p | (a, b, _) :: r => (a =? p) && tiles b r n end.

Lemma merge_sound fuel : forall p l1 l2 rs1 rs2 a b v1 v2, incl l1 rs1 -> incl l2 rs2 -> In (a, b, (v1, v2)) (merge fuel p l1 l2) ->
  (exists a1 b1, In (a1, b1, v1) rs1 /\ a1 <= a /\ b <= b1) /\ (exists a2 b2, In (a2, b2, v2) rs2 /\ a2 <= a /\ b <= b2).
Proof.
  induction fuel as [|m IH]; intros p l1 l2 rs1 rs2 a b v1 v2 I1 I2 H; [destruct H|].
  destruct l1 as [|[[a1 b1] w1] r1]; [destruct H|]. destruct l2 as [|[[a2 b2] w2] r2]; [destruct H|]. cbn [merge] in H.
  destruct ((a1 <=? p) && (a2 <=? p)) eqn:E; [|destruct H]. destruct H as [H|H].
  - assert (p = a /\ Z.min b1 b2 = b /\ w1 = v1 /\ w2 = v2) as (<- & <- & <- & <-) by (repeat split; congruence). split.
    + exists a1, b1. split; [apply I1; left; reflexivity|lia].
    + exists a2, b2. split; [apply I2; left; reflexivity|lia].
  - eapply IH in H; [exact H| |].
    + destruct (b1 <=? Z.min b1 b2); [|exact I1]. intros x Hx. apply I1. right. exact Hx.
    + destruct (b2 <=? Z.min b1 b2); [|exact I2]. intros x Hx. apply I2. right. exact Hx.
Qed.
Lemma tiles_covers {A} (ms : list (Z * Z * A)) n : forall p, tiles p ms n = true -> forall x, p <= x < n ->
  exists a b v, In (a, b, v) ms /\ a <= x < b.
Proof.
  induction ms as [|[[a b] v] r IH]; intros p H x Hx; cbn in H; [lia|].
  apply andb_true_iff in H as [H1 H2]. apply Z.eqb_eq in H1. subst a.
  destruct (Z_lt_le_dec x b).
  - exists p, b, v. split; [left; reflexivity|lia].
  - destruct (IH b H2 x ltac:(lia)) as (a' & b' & v' & Hin & Hr). exists a', b', v'. split; [right; exact Hin|exact Hr].
Qed.

Definition merged (rs1 rs2 : list (Z * Z * Z)) : list (Z * Z * (Z * Z)) := merge (length rs1 + length rs2) 0 rs1 rs2.
Lemma by_merged g1 g2 rs1 rs2 n (P : Z -> Z -> Z -> Prop) : runs_ok g1 rs1 n -> runs_ok g2 rs2 n ->
  tiles 0 (merged rs1 rs2) n = true ->
  (forall a b v1 v2, In (a, b, (v1, v2)) (merged rs1 rs2) -> forall c, a <= c < b -> P c v1 v2) ->
  forall c, 0 <= c < n -> exists v1 v2, g1 c = Ok v1 /\ g2 c = Ok v2 /\ P c v1 v2.
Proof.
  intros [_ H1] [_ H2] T HP c Hc. destruct (tiles_covers _ n 0 T c Hc) as (a & b & [v1 v2] & Hin & Hr).
  destruct (merge_sound _ _ _ _ rs1 rs2 _ _ _ _ (incl_refl _) (incl_refl _) Hin) as [(a1 & b1 & I1 & L1) (a2 & b2 & I2 & L2)].
  exists v1, v2. split; [|split].
  - eapply H1; eauto. lia.
  - eapply H2; eauto. lia.
  - eapply HP; eauto.
Qed.
