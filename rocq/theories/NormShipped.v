(** * The shipped NFC data. *)
From Coq Require Import ZArith List Bool Lia ZifyBool.
From Verif Require Import Py Arr SpecText Utilities UtilitiesFacts Runs CPTrie CPTrieRuns CharRuns Data_NFC Normalizer2 NormFacts.
Import ListNotations.
Open Scope Z_scope.

Definition nfc : norm2 := mkNorm2 nfc_trie 192 2786 4744 15462 64512 7999 (arr_to norm2_nfc_data_extraData 0) (arr_from norm2_nfc_data_extraData 0).
Lemma nfc_is : createFromHardCodedData = Ok nfc.
Proof. reflexivity. Qed.

Definition nfc_runs : list (Z * Z * Z) := Eval vm_compute in of_res (cp_runs nfc_trie (0x2fc00 / 16)).
Lemma nfc_runs_eq : cp_runs nfc_trie (0x2fc00 / 16) = Ok nfc_runs.
Proof. vm_cast_no_check (eq_refl (Ok nfc_runs)). Qed.
Lemma nfc_runs_ok : runs_ok (cpget nfc_trie) nfc_runs 0x2fc00.
Proof. apply (cp_runs_correct nfc_trie nfc_runs); [reflexivity|split; discriminate|reflexivity|exact nfc_runs_eq]. Qed.
Lemma nfc_high c : 0x2fc00 <= c -> cpget nfc_trie c = Ok 1.
Proof.
  intros H. unfold cpget, cpIndex. replace (c <=? 0x7F) with false by lia. change (cp_type nfc_trie =? TYPE_FAST) with true. cbv iota.
  replace (c <=? 0xFFFF) with false by lia. destruct (c <=? 0x10FFFF).
  - unfold smallIndex. change (cp_highStart nfc_trie) with 0x2fc00. replace (c >=? 0x2fc00) with true by lia. vm_compute. reflexivity.
  - vm_compute. reflexivity.
Qed.

(** ** Every code point: no decomposition, a Hangul syllable, or a checked mapping *)
Definition is_syllable (c : Z) : bool := (0xAC00 <=? c) && (c <=? 0xD7A3).
Definition lv (c : Z) : bool := (c - 0xAC00) mod 28 =? 0.
Definition settled (a b v : Z) : bool :=
  if (v <? 2786) || (64512 <=? v) then (b <=? 0xAC00) || (0xD7A3 <? a)
  else if v =? 2786 then is_syllable a && lv a && (b =? a + 1)
  else if v =? 4745 then is_syllable a && is_syllable (b - 1) && negb (lv a) && ((a - 0xAC00) / 28 =? (b - 1 - 0xAC00) / 28)
  else false.

Definition list_eqb (a b : list Z) : bool := if list_eq_dec Z.eq_dec a b then true else false.
(** repeated raw decomposition *)
Fixpoint expand (n : nat) (c : Z) : res (list Z) :=
  match n with
  | O => Err OutOfFuel
  | S m => let* r := getRawDecomposition nfc c in
           match r with
           | None => Ok [c]
           | Some l => let* rs := mapM (expand m) l in Ok (concat rs)
           end
  end.
Definition is_none (r : res (option (list Z))) : bool := match r with Ok None => true | _ => false end.
Definition scalarb (c : Z) : bool := if (0 <=? c) && (c <? 0xD800) then true else (0xE000 <=? c) && (c <=? 0x10FFFF).
Definition raw_key (r : list Z) : positive := match r with [x; y] => Z.to_pos (x * 0x200000 + y + 1) | _ => 1%positive end.

Definition nfc_table : list (Z * list Z * list Z) := Eval vm_compute in
  flat_map (fun r => let '(a, b, v) := r in if settled a b v then [] else
    flat_map (fun c => match getRawDecomposition nfc c, getDecomposition nfc c with Ok (Some r), Ok (Some f) => [(c, r, f)] | _, _ => [] end) (zrange a b)) nfc_runs.
Definition pair_tree : tree := Eval vm_compute in
  fold_left (fun t e => let '(c, r, f) := e in match r with [_; _] => tset t (raw_key r) c | _ => t end) nfc_table Lf.

Definition good (c : Z) (raw full : list Z) : bool :=
  match expand 5 c with Ok l => list_eqb l full | Err _ => false end &&
  forallb (fun x => is_none (getRawDecomposition nfc x)) full &&
  forallb scalarb raw && forallb scalarb full &&
  forallb (fun x => negb (x =? c)) full && forallb (fun x => negb (x =? c)) raw &&
  (192 <=? c) && scalarb c && ((1 <=? zlen full) && (zlen full <=? 4)) &&
  match raw with
  | [x] => true
  | [x; y] => (tget pair_tree (raw_key raw) =? c) && negb (is_syllable x) && negb ((0x1100 <=? x) && (x <=? 0x1112))
  | _ => false
  end.
Definition each_ok (c v : Z) : bool :=
  if is_syllable c then false else
  match getRawDecomposition nfc c, getDecomposition nfc c with
  | Ok None, Ok None => isLead c
  | Ok (Some r), Ok (Some f) => good c r f
  | _, _ => false
  end.
Lemma nfc_checked : check_runs settled each_ok nfc_runs = true.
Proof. vm_compute. reflexivity. Qed.

Lemma nfc_sane : sane nfc. Proof. unfold sane. cbn. lia. Qed.
Definition no_decomposition (c : Z) : Prop := getRawDecomposition nfc c = Ok None /\ getDecomposition nfc c = Ok None.
Definition hangul_case (c : Z) : Prop := exists l v t, jamo_ok l v t /\ c = syllable l v t /\
  getDecomposition nfc c = Ok (Some (jamo l v t)) /\
  getRawDecomposition nfc c = Ok (Some (if t =? 0 then [0x1100 + l; 0x1161 + v] else [syllable l v 0; 0x11A7 + t])).
Definition mapped_case (c : Z) : Prop := exists r f, getRawDecomposition nfc c = Ok (Some r) /\ getDecomposition nfc c = Ok (Some f) /\ good c r f = true.

Lemma norm16_none c v : cpget nfc_trie c = Ok v -> v < 2786 \/ 64512 <= v -> no_decomposition c.
Proof.
  intros G H. unfold no_decomposition.
  assert (exists w, getNorm16 nfc c = Ok w /\ (w < 2786 \/ 64512 <= w)) as (w & Gw & Hw).
  { unfold getNorm16. destruct (isLead c); [exists 1; split; [reflexivity|lia]|exists v; split; [exact G|exact H]]. }
  destruct (none_yes nfc c w nfc_sane ltac:(cbn; lia) Gw Hw) as [A B]. split; assumption.
Qed.
Lemma syllable_not_lead c : is_syllable c = true -> isLead c = false.
Proof. unfold is_syllable. intros H. apply not_true_iff_false. rewrite isLead_spec by lia. lia. Qed.
Lemma norm16_hangul c v : cpget nfc_trie c = Ok v -> is_syllable c = true -> v = 2786 \/ v = 4745 -> hangul_case c.
Proof.
  intros G S Hv. pose proof (syllable_not_lead c S) as L. unfold is_syllable in S.
  destruct (syllable_parts c ltac:(lia)) as (l & w & t & K & E). exists l, w, t. split; [exact K|]. split; [exact E|].
  assert (Gn : getNorm16 nfc (syllable l w t) = Ok v) by (rewrite <- E; unfold getNorm16; rewrite L; exact G).
  rewrite E. apply (hangul_both nfc l w t v K); cbn; [lia|exact Gn|exact Hv|lia|lia].
Qed.
Theorem nfc_cases c : 0 <= c <= 0x10FFFF ->
  (is_syllable c = false /\ no_decomposition c) \/ (is_syllable c = true /\ hangul_case c) \/ (is_syllable c = false /\ mapped_case c).
Proof.
  intros Hc. destruct (Z_lt_le_dec c 0x2fc00) as [L|L].
  2:{ left. split; [unfold is_syllable; lia|]. apply (norm16_none c 1); [apply nfc_high; exact L|lia]. }
  destruct (by_runs _ _ _ (fun c v => (v < 2786 \/ 64512 <= v) /\ is_syllable c = false \/ (is_syllable c = true /\ (v = 2786 \/ v = 4745)) \/ each_ok c v = true)
    nfc_runs_ok) with (c := c) as (v & G & [[H1 H2]|[[H1 H2]|H]]); [|lia| | |].
  - apply (check_runs_ok settled each_ok nfc_runs _ nfc_checked); [|intros; right; right; assumption].
    intros a b v x S Hx. unfold settled in S. destruct ((v <? 2786) || (64512 <=? v)) eqn:E.
    + left. split; [lia|]. unfold is_syllable. lia.
    + right. left. unfold is_syllable, lv in *. destruct (v =? 2786) eqn:E2; [split; lia|]. destruct (v =? 4745) eqn:E3; [|discriminate]. split; lia.
  - left. split; [exact H2|]. eapply norm16_none; eauto.
  - right. left. split; [exact H1|]. eapply norm16_hangul; eauto.
  - unfold each_ok in H. destruct (is_syllable c); [discriminate|].
    destruct (getRawDecomposition nfc c) as [[r|]|] eqn:R, (getDecomposition nfc c) as [[f|]|] eqn:F; try discriminate.
    + right. right. split; [reflexivity|]. exists r, f. auto.
    + left. split; [reflexivity|]. split; assumption.
Qed.

(** the value tells whether a character decomposes; lead surrogates never do *)
Definition yes (n : Z) : bool := (n <? 2786) || (64512 <=? n).
Theorem nfc_values c n : 0 <= c < 0x2fc00 -> cpget nfc_trie c = Ok n -> (no_decomposition c <-> yes n = true \/ isLead c = true).
Proof.
  intros Hc G. destruct (isLead c) eqn:L.
  - split; [auto|]. intros _. destruct (none_yes nfc c 1 nfc_sane ltac:(cbn; lia)) as [A B]; [unfold getNorm16; rewrite L; reflexivity|cbn; lia|split; assumption].
  - split; [|intros [Y|]; [|discriminate]; apply (norm16_none c n G); unfold yes in Y; lia]. intros [R F]. left.
    destruct (by_runs _ _ _ (fun c v => yes v = true \/ (is_syllable c = true /\ (v = 2786 \/ v = 4745)) \/ each_ok c v = true)
      nfc_runs_ok) with (c := c) as (v & G' & H); [|lia|].
    + apply (check_runs_ok settled each_ok nfc_runs _ nfc_checked); [|intros; right; right; assumption].
      intros a b v x S Hx. unfold settled in S. unfold yes. destruct ((v <? 2786) || (64512 <=? v)) eqn:E; [auto|].
      right. left. unfold is_syllable, lv in *. destruct (v =? 2786) eqn:E2; [split; lia|]. destruct (v =? 4745) eqn:E3; [|discriminate]. split; lia.
    + assert (v = n) by congruence. subst v. destruct H as [H|[[H1 H2]|H]]; [exact H| |].
      * destruct (norm16_hangul c n G H1 H2) as (l & w & t & _ & _ & F' & _). congruence.
      * unfold each_ok in H. destruct (is_syllable c); [discriminate|]. rewrite R, F in H. congruence.
Qed.

(** ** What the checks mean *)
Lemma list_eqb_eq a b : list_eqb a b = true -> a = b.
Proof. unfold list_eqb. destruct (list_eq_dec Z.eq_dec a b); [auto|discriminate]. Qed.
Lemma scalarb_ok c : scalarb c = true -> scalar c.
Proof. unfold scalarb, scalar. destruct ((0 <=? c) && (c <? 0xD800)) eqn:E; lia. Qed.
Lemma scalars_ok l : forallb scalarb l = true -> Forall scalar l.
Proof. intros H. apply Forall_forall. intros x Hx. apply scalarb_ok. rewrite forallb_forall in H. auto. Qed.

(** ** Closure of the raw decomposition *)
Inductive expands : Z -> list Z -> Prop :=
  | expands_stop c : getRawDecomposition nfc c = Ok None -> expands c [c]
  | expands_step c l r : getRawDecomposition nfc c = Ok (Some l) -> expands_all l r -> expands c r
with expands_all : list Z -> list Z -> Prop :=
  | expands_nil : expands_all [] []
  | expands_cons c l r s : expands c r -> expands_all l s -> expands_all (c :: l) (r ++ s).
Scheme expands_ind2 := Induction for expands Sort Prop
  with expands_all_ind2 := Induction for expands_all Sort Prop.

Lemma expand_sound n : forall c l, expand n c = Ok l -> expands c l.
Proof.
  induction n as [|n IH]; intros c l H; [discriminate|]. cbn [expand] in H.
  destruct (getRawDecomposition nfc c) as [[r|]|] eqn:R; cbn [bind] in H; [| |discriminate].
  - destruct (mapM (expand n) r) as [rs|] eqn:M; [|discriminate]. cbn [bind] in H.
    assert (l = concat rs) as -> by congruence. apply (expands_step c r); [exact R|]. clear R H.
    revert rs M. induction r as [|x r IHr]; intros rs M; cbn [mapM] in M.
    + assert (rs = []) as -> by congruence. constructor.
    + destruct (expand n x) as [y|] eqn:X; [|discriminate]. cbn [bind] in M. destruct (mapM (expand n) r) as [ys|]; [|discriminate].
      assert (rs = y :: ys) as -> by (cbn in M; congruence). cbn [concat]. constructor; auto.
  - assert (l = [c]) as -> by congruence. constructor. exact R.
Qed.
Lemma expands_det : forall c l, expands c l -> forall l', expands c l' -> l = l'.
Proof.
  apply (expands_ind2 (fun c l _ => forall l', expands c l' -> l = l') (fun l r _ => forall r', expands_all l r' -> r = r')).
  - intros c R l' H. inversion H; subst; [reflexivity|congruence].
  - intros c l r R HA IH l' H. inversion H as [? R'|? l2 r2 R' HA']; subst; [congruence|]. apply IH. assert (l2 = l) by congruence. subst. exact HA'.
  - intros r' H. inversion H. reflexivity.
  - intros c l r s H IH HA IHA r' H'. inversion H'; subst. f_equal; auto.
Qed.

Lemma jamo_checked : forallb (fun c => is_none (getRawDecomposition nfc c)) (zrange 0x1100 0x1113 ++ zrange 0x1161 0x1176 ++ zrange 0x11A8 0x11C3) = true.
Proof. vm_compute. reflexivity. Qed.
Lemma jamo_final x : 0x1100 <= x < 0x1113 \/ 0x1161 <= x < 0x1176 \/ 0x11A8 <= x < 0x11C3 -> getRawDecomposition nfc x = Ok None.
Proof.
  intros H. pose proof jamo_checked as J. rewrite forallb_forall in J. specialize (J x). unfold is_none in J.
  destruct (getRawDecomposition nfc x) as [[?|]|]; [|reflexivity|];
    (exfalso; enough (false = true) by discriminate; apply J; rewrite !in_app_iff, !zrange_spec; lia).
Qed.
Lemma expands_two a b r : expands a r -> getRawDecomposition nfc b = Ok None -> expands_all [a; b] (r ++ [b]).
Proof. intros H B. constructor; [exact H|]. apply (expands_cons b [] [b] []); [constructor; exact B|constructor]. Qed.

Theorem nfc_closure c : 0 <= c <= 0x10FFFF -> exists r, expands c r /\ (forall x, In x r -> getRawDecomposition nfc x = Ok None) /\
  ((no_decomposition c /\ r = [c]) \/ exists l, getRawDecomposition nfc c = Ok (Some l) /\ getDecomposition nfc c = Ok (Some r)).
Proof.
  intros Hc. destruct (nfc_cases c Hc) as [[_ N]|[[_ (l & v & t & K & -> & F & R)]|[_ (r & f & R & F & G)]]].
  - exists [c]. split; [constructor; apply N|]. split; [|left; auto]. intros x [<-|[]]. apply N.
  - exists (jamo l v t). unfold jamo_ok in K. split; [|split; [|right; eauto]].
    + eapply expands_step; [exact R|]. unfold jamo. assert (LV : expands_all [0x1100 + l; 0x1161 + v] ([0x1100 + l] ++ [0x1161 + v])).
      { apply expands_two; [constructor|]; apply jamo_final; lia. }
      destruct (t =? 0) eqn:T; [exact LV|].
      apply (expands_two _ (0x11A7 + t) [0x1100 + l; 0x1161 + v]); [|apply jamo_final; lia].
      destruct (nfc_cases (syllable l v 0)) as [[A _]|[[_ (l' & v' & t' & K' & E' & F' & R')]|[A _]]].
      * unfold syllable. lia.
      * unfold is_syllable, syllable in A. lia.
      * unfold jamo_ok in K'. assert (l' = l /\ v' = v /\ t' = 0) as (-> & -> & ->) by (unfold syllable in E'; lia).
        eapply expands_step; [exact R'|]. exact LV.
      * unfold is_syllable, syllable in A. lia.
    + unfold jamo. intros x [<-|[<-|H]]; try (apply jamo_final; lia). destruct (t =? 0) eqn:T; [destruct H|]. destruct H as [<-|[]]. apply jamo_final. lia.
  - exists f. unfold good in G. rewrite !andb_true_iff in G. destruct G as [[[[[[[[[G1 G2] G3] G4] G5] G6] G7] G8] G9] G10].
    split; [|split; [|right; eauto]].
    + destruct (expand 5 c) as [l|] eqn:E; [|discriminate]. apply list_eqb_eq in G1. subst. eapply expand_sound; eauto.
    + intros x Hx. rewrite forallb_forall in G2. specialize (G2 x Hx). unfold is_none in G2. destruct (getRawDecomposition nfc x) as [[?|]|]; congruence.
Qed.

(** ** Other facts of every decomposition *)
Theorem nfc_results c : 0 <= c <= 0x10FFFF ->
  no_decomposition c \/ exists r f, getRawDecomposition nfc c = Ok (Some r) /\ getDecomposition nfc c = Ok (Some f) /\
    192 <= c /\ scalar c /\ Forall scalar r /\ Forall scalar f /\ ~ In c r /\ ~ In c f /\ (zlen r = 1 \/ zlen r = 2) /\ 1 <= zlen f <= 4.
Proof.
  intros Hc. destruct (nfc_cases c Hc) as [[_ N]|[[_ (l & v & t & K & -> & F & R)]|[_ (r & f & R & F & G)]]]; [left; exact N| |]; right.
  - eexists _, _. split; [exact R|]. split; [exact F|]. unfold jamo_ok in K. unfold syllable, jamo, scalar.
    destruct (t =? 0) eqn:T; (split; [lia|split; [lia|]]); (split; [repeat constructor; lia|]); (split; [repeat constructor; lia|]); cbn [In];
      (split; [lia|]); (split; [lia|]); split; unfold zlen; cbn [length]; lia.
  - exists r, f. split; [exact R|]. split; [exact F|]. unfold good in G. rewrite !andb_true_iff in G. destruct G as [[[[[[[[[G1 G2] G3] G4] G5] G6] G7] G8] G9] G10].
    split; [lia|]. split; [apply scalarb_ok; exact G8|]. split; [apply scalars_ok; exact G3|]. split; [apply scalars_ok; exact G4|].
    split; [|split; [|split; [|lia]]].
    + intros H. rewrite forallb_forall in G6. specialize (G6 _ H). rewrite Z.eqb_refl in G6. discriminate.
    + intros H. rewrite forallb_forall in G5. specialize (G5 _ H). rewrite Z.eqb_refl in G5. discriminate.
    + destruct r as [|x [|y [|z q]]]; try discriminate; unfold zlen; cbn [length]; lia.
Qed.

(** ** No two characters have the same two character raw decomposition *)
Theorem nfc_pairs c c' x y : 0 <= c <= 0x10FFFF -> 0 <= c' <= 0x10FFFF ->
  getRawDecomposition nfc c = Ok (Some [x; y]) -> getRawDecomposition nfc c' = Ok (Some [x; y]) -> c = c'.
Proof.
  assert (W : forall c c', 0 <= c <= 0x10FFFF -> 0 <= c' <= 0x10FFFF -> hangul_case c -> mapped_case c' ->
    getRawDecomposition nfc c = Ok (Some [x; y]) -> getRawDecomposition nfc c' = Ok (Some [x; y]) -> False).
  { intros d d' Hd Hd' (l & v & t & K & -> & F & R) (r & f & R' & F' & G) E E'.
    assert (r = [x; y]) as -> by congruence. unfold good in G. rewrite !andb_true_iff in G. destruct G as [_ [[_ G1] G2]].
    unfold jamo_ok in K. unfold is_syllable in G1. destruct (t =? 0) eqn:T.
    - assert (x = 0x1100 + l) by congruence. lia.
    - assert (x = syllable l v 0) by congruence. unfold syllable in *. lia. }
  intros Hc Hc' E E'. destruct (nfc_cases c Hc) as [[_ [N _]]|[[_ A]|[_ B]]]; [congruence| |]; (destruct (nfc_cases c' Hc') as [[_ [N' _]]|[[_ A']|[_ B']]]; [congruence| |]).
  - destruct A as (l & v & t & K & -> & F & R), A' as (l' & v' & t' & K' & -> & F' & R').
    unfold jamo_ok in K, K'. rewrite E in R. rewrite E' in R'.
    assert (Q : (if t =? 0 then [0x1100 + l; 0x1161 + v] else [syllable l v 0; 0x11A7 + t]) = (if t' =? 0 then [0x1100 + l'; 0x1161 + v'] else [syllable l' v' 0; 0x11A7 + t'])) by congruence.
    pose proof (f_equal (fun x => nth 0 x 0) Q) as Q0. pose proof (f_equal (fun x => nth 1 x 0) Q) as Q1.
    destruct (t =? 0) eqn:T, (t' =? 0) eqn:T'; cbn [nth] in Q0, Q1; unfold syllable in *; lia.
  - destruct (W c c'); auto.
  - destruct (W c' c); auto.
  - destruct B as (r & f & R & F & G), B' as (r' & f' & R' & F' & G').
    assert (r = [x; y]) as -> by congruence. assert (r' = [x; y]) as -> by congruence.
    unfold good in G, G'. rewrite !andb_true_iff in G, G'. destruct G as [_ [[G _] _]], G' as [_ [[G' _] _]].
    apply Z.eqb_eq in G, G'. congruence.
Qed.

(** ** Integers that are no code points *)
Theorem nfc_above c : 0x2fc00 <= c -> no_decomposition c.
Proof. intros H. apply (norm16_none c 1); [apply nfc_high; exact H|lia]. Qed.
Theorem nfc_below c : c < 192 -> -7892 <= c -> no_decomposition c.
Proof.
  intros H1 H2. assert (exists v, getNorm16 nfc c = Ok v) as [v G].
  { unfold getNorm16. destruct (isLead c); [eexists; reflexivity|]. destruct (Z_lt_le_dec c 0) as [L|L].
    - unfold nfc, n_trie, cpget. replace (c <=? 0x7F) with true by lia. cbn [bind]. unfold aget.
      replace (c <? 0) with true by lia. change (alen (cp_data nfc_trie)) with 7892. replace ((0 <=? c + 7892) && (c + 7892 <? 7892)) with true by lia. eexists; reflexivity.
    - destruct (by_runs _ _ _ (fun _ _ => True) nfc_runs_ok) with (c := c) as (v & G & _); [auto|lia|]. exists v. exact G. }
  destruct (none_small nfc c v G ltac:(cbn; lia)). split; assumption.
Qed.
