(** * Read-only views of a UnicodeSet: iteration, size, indexing, ranges,
    equality, range containment. *)
From Coq Require Import ZArith List Bool Lia Sorted ZifyBool.
From Verif Require Import Py UnicodeSet UnicodeSetFacts UnicodeSetMerge UnicodeSetUnion UnicodeSetOps.
Import ListNotations.
Open Scope Z_scope.

Fixpoint pairs (l : list Z) : list (Z * Z) :=
  match l with
  | a :: r => match r with b :: r' => (a, b) :: pairs r' | [] => [] end
  | [] => []
  end.

Definition elements (l : list Z) : list Z :=
  concat (map (fun ab => py_range (fst ab) (snd ab) 1) (pairs l)).

Definition idxs (j n : nat) : list Z := map (fun k => 0 + Z.of_nat k * 2) (seq j n).

Lemma py_range_2_count (l : list Z) : py_range 0 (zlen l - 1) 2 = idxs 0 (length l / 2).
Proof.
  unfold py_range, idxs. do 2 f_equal. unfold zlen.
  rewrite <- (Nat2Z.id (length l / 2)). f_equal. rewrite Nat2Z.inj_div. lia.
Qed.

Lemma py_range_2_even (l : list Z) : py_range 0 (Z.land (zlen l) (Z.lnot 1)) 2 = idxs 0 (length l / 2).
Proof.
  unfold py_range, idxs. do 2 f_equal.
  rewrite <- Z.ldiff_land. change 1 with (Z.ones 1) at 1. rewrite Z.ldiff_ones_r by lia.
  rewrite shiftr1, Z.shiftl_mul_pow2 by lia. unfold zlen.
  rewrite <- (Nat2Z.id (length l / 2)). f_equal. rewrite Nat2Z.inj_div. lia.
Qed.

Lemma py_range_1_count (l : list Z) : py_range 0 (getRangeCount l) 1 = map (fun k => Z.of_nat k) (seq 0 (length l / 2)).
Proof.
  unfold py_range, getRangeCount. rewrite <- (Nat2Z.id (length l / 2)).
  replace ((zlen l / 2 - 0 + 1 - 1) / 1) with (Z.of_nat (length l / 2))
    by (rewrite Nat2Z.inj_div; unfold zlen; lia).
  apply map_ext. intros; lia.
Qed.

Lemma half_cons2 {A} (x y : A) l : (length (x :: y :: l) / 2 = S (length l / 2))%nat.
Proof.
  simpl length. replace (S (S (length l))) with (length l + 1 * 2)%nat by lia.
  rewrite Nat.div_add by lia. lia.
Qed.

Lemma get_pair {A} (pre : list A) a b r j : length pre = (2 * j)%nat ->
  py_get (pre ++ a :: b :: r) (0 + Z.of_nat j * 2) = Ok a /\
  py_get (pre ++ a :: b :: r) (0 + Z.of_nat j * 2 + 1) = Ok b.
Proof.
  intros H. split.
  - replace (0 + Z.of_nat j * 2) with (zlen pre) by (unfold zlen; lia). apply py_get_mid.
  - replace (0 + Z.of_nat j * 2 + 1) with (zlen (pre ++ [a])) by (rewrite zlen_app, zlen_cons, zlen_nil; unfold zlen; lia).
    change (pre ++ a :: b :: r) with (pre ++ [a] ++ b :: r). rewrite app_assoc. apply py_get_mid.
Qed.

Lemma app2_assoc {A} (pre : list A) a b r : pre ++ a :: b :: r = (pre ++ [a; b]) ++ r.
Proof. rewrite <- app_assoc. reflexivity. Qed.

Lemma mapM_pairs {B} (g : Z -> Z -> B) : forall suf pre j, length pre = (2 * j)%nat ->
  mapM (fun i => let* s := py_get (pre ++ suf) i in
                 let* t := py_get (pre ++ suf) (i + 1) in Ok (g s t))
       (idxs j (length suf / 2)) =
  Ok (map (fun ab => g (fst ab) (snd ab)) (pairs suf)).
Proof.
  induction suf as [|x|x y l IH] using list_ind2; intros pre j H; [reflexivity|reflexivity|].
  rewrite half_cons2. unfold idxs. cbn [seq map mapM pairs].
  destruct (get_pair pre x y l j H) as [G1 G2]. rewrite G1. cbn [bind]. rewrite G2. cbn [bind].
  rewrite app2_assoc. fold (idxs (S j) (length l / 2)).
  rewrite (IH (pre ++ [x; y]) (S j)) by (rewrite app_length; simpl; lia). reflexivity.
Qed.

Lemma getRanges_pairs l : getRanges l = Ok (pairs l).
Proof.
  unfold getRanges. rewrite py_range_2_count.
  etransitivity; [exact (mapM_pairs (fun s t => (s, t)) l [] 0 eq_refl)|]. f_equal.
  induction (pairs l) as [|[a b] r IH]; simpl; congruence.
Qed.

Lemma iter_elements l : iter l = Ok (elements l).
Proof.
  unfold iter. rewrite py_range_2_count.
  pose proof (mapM_pairs (fun s t => py_range s t 1) l [] 0 eq_refl) as H. simpl app in H.
  rewrite H. reflexivity.
Qed.

(** ** Elements *)

Lemma py_range_1_spec a b c : In c (py_range a b 1) <-> a <= c < b.
Proof.
  unfold py_range. rewrite in_map_iff. split.
  - intros (k & <- & H). apply in_seq in H. lia.
  - intros H. exists (Z.to_nat (c - a)). split; [lia|]. apply in_seq. lia.
Qed.

Lemma py_range_1_len a b : length (py_range a b 1) = Z.to_nat (b - a).
Proof. unfold py_range. rewrite map_length, seq_length. f_equal. lia. Qed.

Lemma py_range_1_nth a b i : 0 <= i < b - a -> nth_error (py_range a b 1) (Z.to_nat i) = Some (a + i).
Proof.
  intros H. unfold py_range.
  erewrite map_nth_error; [|erewrite nth_error_nth' with (d := O); [reflexivity|rewrite seq_length; lia]].
  rewrite seq_nth by lia. f_equal. lia.
Qed.

Lemma strict_map_seq a n k : strict (map (fun j => a + Z.of_nat j * 1) (seq k n)).
Proof.
  revert k; induction n as [|n IH]; intros k; simpl; constructor; auto.
  apply Forall_forall. intros x Hx. apply in_map_iff in Hx as (j & <- & Hj). apply in_seq in Hj. lia.
Qed.

Lemma py_range_1_strict a b : strict (py_range a b 1).
Proof. apply strict_map_seq. Qed.

Lemma inr_elements l c : In c (elements l) <-> inr l c = true.
Proof.
  unfold elements. induction l as [|x|x y l IH] using list_ind2; [simpl; intuition discriminate..|].
  cbn [pairs map concat fst snd]. rewrite inr_cons2, in_app_iff, IH, py_range_1_spec.
  rewrite orb_true_iff. split; intros [H|H]; auto; left; lia.
Qed.

Lemma elements_lower lo l : Forall (fun x => lo <= x) l -> Forall (fun x => lo <= x) (elements l).
Proof.
  intros F. apply Forall_forall. intros c Hc. apply inr_elements in Hc. eapply inr_lower; eauto.
Qed.

Lemma elements_strict l : sorted l -> strict (elements l).
Proof.
  induction l as [|x|x y l IH] using list_ind2; intros S; [constructor|constructor|].
  unfold elements. cbn [pairs map concat fst snd]. fold (elements l).
  inversion S as [|? ? S1 F1]; inversion S1 as [|? ? S2 F2]; subst.
  apply strict_app; auto using py_range_1_strict.
  intros u v Hu Hv. apply py_range_1_spec in Hu.
  pose proof (elements_lower y l F2) as Fl. pose proof (in_le _ _ _ Fl Hv). simpl in *. lia.
Qed.

Lemma elements_cons2 x y l : elements (x :: y :: l) = py_range x y 1 ++ elements l.
Proof. reflexivity. Qed.

(** ** size *)

Lemma size_loop_spec : forall suf pre j s, length pre = (2 * j)%nat -> sorted suf ->
  size_loop (pre ++ suf) (map (fun k => Z.of_nat k) (seq j (length suf / 2))) s =
  Ok (s + zlen (elements suf)).
Proof.
  induction suf as [|x|x y l IH] using list_ind2; intros pre j s H S;
    [simpl; f_equal; unfold zlen; simpl; lia|simpl; f_equal; unfold zlen; simpl; lia|].
  rewrite half_cons2. cbn [seq map size_loop]. unfold getRangeStart, getRangeEnd.
  destruct (get_pair pre x y l j H) as [G1 G2]. rewrite !Z.add_0_l in *. rewrite G1. cbn [bind]. rewrite G2. cbn [bind].
  rewrite app2_assoc.
  inversion S as [|? ? S1 F1]; inversion S1 as [|? ? S2 F2]; subst. inversion F1; subst.
  rewrite (IH (pre ++ [x; y]) (Datatypes.S j)) by (auto; rewrite app_length; simpl; lia).
  f_equal. rewrite elements_cons2, zlen_app. unfold zlen at 2. rewrite py_range_1_len. lia.
Qed.

Lemma size_spec l : sorted l -> size l = Ok (zlen (elements l)).
Proof. intros S. unfold size. rewrite py_range_1_count. apply (size_loop_spec l [] 0 0 eq_refl S). Qed.

(** ** charAt *)

Lemma charAt_loop_spec : forall suf pre j i, length pre = (2 * j)%nat -> sorted suf -> 0 <= i ->
  charAt_loop (pre ++ suf) (idxs j (length suf / 2)) i = Ok (nth_error (elements suf) (Z.to_nat i)).
Proof.
  induction suf as [|x|x y l IH] using list_ind2; intros pre j i H S Hi;
    [simpl; destruct (Z.to_nat i); reflexivity|simpl; destruct (Z.to_nat i); reflexivity|].
  rewrite half_cons2. unfold idxs. cbn [seq map charAt_loop].
  destruct (get_pair pre x y l j H) as [G1 G2]. rewrite G1. cbn [bind]. rewrite G2. cbn [bind].
  inversion S as [|? ? S1 F1]; inversion S1 as [|? ? S2 F2]; subst. inversion F1; subst.
  rewrite elements_cons2. destruct (i <? y - x) eqn:E.
  - rewrite nth_error_app1 by (rewrite py_range_1_len; lia). rewrite py_range_1_nth by lia. reflexivity.
  - rewrite nth_error_app2 by (rewrite py_range_1_len; lia). rewrite py_range_1_len.
    rewrite app2_assoc. fold (idxs (Datatypes.S j) (length l / 2)).
    rewrite (IH (pre ++ [x; y]) (Datatypes.S j)) by (auto; try lia; rewrite app_length; simpl; lia).
    do 2 f_equal. lia.
Qed.

Lemma charAt_spec l i : sorted l ->
  charAt l i = Ok (if i <? 0 then None else nth_error (elements l) (Z.to_nat i)).
Proof.
  intros S. unfold charAt. destruct (i >=? 0) eqn:E; destruct (i <? 0) eqn:E2; try lia; [|reflexivity].
  rewrite py_range_2_even. apply (charAt_loop_spec l [] 0 i eq_refl S). lia.
Qed.

(** ** indexOf *)

Lemma indexOf_loop_spec : forall suf pre j cp n, length pre = (2 * j)%nat -> sorted suf ->
  exists r, indexOf_loop (pre ++ suf) cp (idxs j (length suf / 2)) n = Ok r /\
    match r with
    | Some k => n <= k /\ nth_error (elements suf) (Z.to_nat (k - n)) = Some cp
    | None => ~ In cp (elements suf)
    end.
Proof.
  induction suf as [|x|x y l IH] using list_ind2; intros pre j cp n H S;
    [exists None; split; [reflexivity|intros []]|exists None; split; [reflexivity|intros []]|].
  rewrite half_cons2. unfold idxs. cbn [seq map indexOf_loop].
  destruct (get_pair pre x y l j H) as [G1 G2]. rewrite G1. cbn [bind].
  inversion S as [|? ? S1 F1]; inversion S1 as [|? ? S2 F2]; subst. inversion F1; subst.
  destruct (cp <? x) eqn:E1.
  - exists None. split; auto. intros Hc.
    assert (F : Forall (fun z => x <= z) (x :: y :: l)) by (constructor; [lia|auto]).
    apply elements_lower in F. pose proof (in_le _ _ _ F Hc). simpl in *. lia.
  - rewrite G2. cbn [bind]. rewrite elements_cons2. destruct (cp <? y) eqn:E2.
    + exists (Some (n + cp - x)). split; auto. split; [lia|].
      replace (n + cp - x - n) with (cp - x) by lia.
      rewrite nth_error_app1 by (rewrite py_range_1_len; lia). rewrite py_range_1_nth by lia. f_equal; lia.
    + rewrite app2_assoc. fold (idxs (Datatypes.S j) (length l / 2)).
      destruct (IH (pre ++ [x; y]) (Datatypes.S j) cp (n + (y - x))) as (r & Er & Hr);
        [rewrite app_length; simpl; lia|auto|].
      exists r. split; auto. destruct r as [k|].
      * destruct Hr as [L Hr]. split; [lia|].
        rewrite nth_error_app2 by (rewrite py_range_1_len; lia). rewrite py_range_1_len.
        rewrite <- Hr. f_equal. lia.
      * rewrite in_app_iff, py_range_1_spec. intros [Hc|Hc]; [lia|auto].
Qed.

Lemma indexOf_spec l cp : WF l ->
  exists r, indexOf l cp = Ok r /\
    match r with
    | Some k => 0 <= k /\ nth_error (elements l) (Z.to_nat k) = Some cp
    | None => ~ In cp (elements l)
    end.
Proof.
  intros (S & B & N & L). unfold indexOf.
  destruct ((cp <? LOW) || (cp >? HIGH)) eqn:E.
  - exists None. split; auto. intros Hc. apply inr_elements in Hc.
    unfold LOW in E.
    assert (cp < 0 \/ HIGH < cp) as [H|H] by lia.
    + apply (inr_lower 0) in Hc; [lia|]. eapply Forall_impl; [|exact B]; simpl; intros; lia.
    + clear - B H Hc. induction l as [|x|x y l IH] using list_ind2; [discriminate..|].
      rewrite inr_cons2 in Hc. inversion B as [|? ? B1 B']; inversion B'; subst.
      apply orb_true_iff in Hc as [Hc|Hc]; [lia|]. apply IH; auto.
  - rewrite py_range_2_even.
    destruct (indexOf_loop_spec l [] 0%nat cp 0 eq_refl S) as (r & Er & Hr).
    exists r. split; auto. destruct r; auto. rewrite Z.sub_0_r in Hr. auto.
Qed.

Lemma elements_contains l c : WF l ->
  In c (elements l) <-> 0 <= c < HIGH /\ contains l c = Ok true.
Proof.
  intros W. pose proof W as (S & B & N & L). rewrite inr_elements. split.
  - intros H.
    assert (0 <= c) by (apply (inr_lower 0 l); [eapply Forall_impl; [|exact B]; simpl; intros; lia|exact H]).
    assert (c < HIGH).
    { clear - B H. induction l as [|x|x y l IH] using list_ind2; [discriminate..|].
      rewrite inr_cons2 in H. inversion B as [|? ? B1 B']; inversion B'; subst.
      apply orb_true_iff in H as [Hc|Hc]; [lia|]. apply IH; auto. }
    split; [lia|]. rewrite contains_par, par_inr, H by auto. reflexivity.
  - intros [H1 H2]. rewrite contains_par, par_inr in H2 by (auto; lia). congruence.
Qed.

(** ** Equality of canonical sets *)

Lemma list_eqb_eq l1 l2 : list_eqb l1 l2 = true <-> l1 = l2.
Proof.
  revert l2; induction l1 as [|x r IH]; intros [|y s]; simpl; split; intros H; try discriminate; auto.
  - apply andb_true_iff in H as [H1 H2]. apply IH in H2. apply Z.eqb_eq in H1. congruence.
  - injection H as -> ->. rewrite Z.eqb_refl. apply IH. reflexivity.
Qed.

Lemma strict_unique : forall l1 l2,
  strict l1 -> strict l2 -> l1 <> [] -> l2 <> [] -> last l1 0 = HIGH -> last l2 0 = HIGH ->
  Forall (fun x => 0 <= x <= HIGH) l1 -> Forall (fun x => 0 <= x <= HIGH) l2 ->
  (forall c, 0 <= c < HIGH -> par l1 c = par l2 c) -> l1 = l2.
Proof.
  induction l1 as [|a as_ IH]; intros l2 S1 S2 N1 N2 L1 L2 B1 B2 H; [congruence|].
  destruct l2 as [|b bs]; [congruence|].
  inversion S1 as [|? ? S1' F1]; inversion S2 as [|? ? S2' F2]; subst.
  inversion B1 as [|? ? B1a B1']; inversion B2 as [|? ? B2a B2']; subst.
  assert (Hlt : forall x xs y ys, Forall (Z.lt x) xs -> Forall (Z.lt y) ys -> 0 <= x <= HIGH -> 0 <= y <= HIGH ->
      x < y -> (forall c, 0 <= c < HIGH -> par (x :: xs) c = par (y :: ys) c) -> False).
  { intros x xs y ys Fx Fy Bx By Hxy Hp. specialize (Hp x ltac:(lia)). cbn [par] in Hp.
    rewrite (par_gt xs) in Hp by auto.
    rewrite (par_gt ys) in Hp by (eapply Forall_impl; [|exact Fy]; simpl; intros; lia).
    destruct (x <=? x) eqn:E1, (y <=? x) eqn:E2; lia || discriminate. }
  destruct (Z.lt_trichotomy a b) as [Hl|[->|Hl]].
  - exfalso. eapply (Hlt a as_ b bs); eauto.
  - f_equal. destruct (Z.eq_dec b HIGH) as [->|Nb].
    + assert (Ht : forall t, Forall (Z.lt HIGH) t -> Forall (fun x => 0 <= x <= HIGH) t -> t = []).
      { intros [|z t] Ht1 Ht2; auto. inversion Ht1; inversion Ht2; subst; lia. }
      rewrite (Ht as_), (Ht bs); auto.
    + apply last_cons_high in L1 as [M1 L1]; auto. apply last_cons_high in L2 as [M2 L2]; auto.
      apply IH; auto. intros c Hc. specialize (H c Hc). cbn [par] in H.
      destruct (b <=? c), (par as_ c), (par bs c); simpl in H; congruence.
  - exfalso. eapply (Hlt b bs a as_); eauto. intros c Hc. symmetry. apply H; auto.
Qed.

Lemma canon_eq l1 l2 : Canon l1 -> Canon l2 ->
  (UnicodeSet.eq l1 l2 = true <-> forall c, 0 <= c < HIGH -> contains l1 c = contains l2 c).
Proof.
  intros [W1 S1] [W2 S2]. unfold UnicodeSet.eq. rewrite list_eqb_eq. split.
  - intros ->. reflexivity.
  - intros H. pose proof W1 as (_ & B1 & N1 & L1). pose proof W2 as (_ & B2 & N2 & L2).
    apply strict_unique; auto.
    intros c Hc. specialize (H c Hc). rewrite !contains_par in H by (auto; lia). congruence.
Qed.

(** ** contains(range) on canonical sets *)

Lemma contains_range_spec l a b : Canon l -> 0 <= a -> a < b -> b <= HIGH ->
  exists r, contains_range l a b = Ok r /\
    (r = true <-> forall c, a <= c < b -> contains l c = Ok true).
Proof.
  intros [W S] Ha Hab Hb.
  destruct (WF_split l a W ltac:(lia)) as (p & x & s & E & F & A & B & C).
  destruct (find_par l a W ltac:(lia)) as (i & Fi & Pi).
  assert (i = zlen p) by congruence. subst i.
  unfold contains_range. rewrite F. cbn [bind]. rewrite land1_odd.
  destruct (Z.odd (zlen p)) eqn:O.
  - assert (G : py_get l (zlen p) = Ok x) by (rewrite E; apply py_get_mid). rewrite G. cbn [bind]. eexists; split; [reflexivity|]. split.
    + intros H c Hc. rewrite contains_par by (auto; lia). f_equal.
      rewrite E, par_app, (par_le p) by (eapply Forall_impl; [|exact A]; simpl; intros; lia).
      rewrite O. rewrite par_gt; [reflexivity|].
      rewrite E in S. apply strict_app_inv in S as (_ & S & _). inversion S; subst.
      constructor; [lia|]. eapply Forall_impl; [|eassumption]; simpl; intros; lia.
    + intros H. destruct (b - 1 <? x) eqn:Ex; auto. exfalso.
      specialize (H x ltac:(lia)). rewrite contains_par in H by (auto; lia).
      injection H as H. rewrite E, par_app, (par_le p) in H by (eapply Forall_impl; [|exact A]; simpl; intros; lia).
      rewrite O in H. cbn [par] in H.
      rewrite E in S. apply strict_app_inv in S as (_ & S & _). inversion S; subst.
      rewrite par_gt in H by auto. destruct (x <=? x) eqn:Exx; [discriminate|lia].
  - exists false. split; auto. split; [discriminate|]. intros H.
    specialize (H a ltac:(lia)). rewrite contains_par in H by (auto; lia). congruence.
Qed.
