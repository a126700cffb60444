(** * CaseProps: facts about the shipped tables. *)
From Coq Require Import ZArith List Bool Lia ZifyBool.
From Verif Require Import Py Arr UTrie2 Runs UTrie2Runs CharRuns CharPropsFacts UtilitiesFacts CaseProps CaseFacts.
Import ListNotations.
Open Scope Z_scope.

Definition case_runs : list (Z * Z * Z) := Eval vm_compute in of_res (trie_runs (casePropsTrie icu_case)).
Lemma case_runs_eq : trie_runs (casePropsTrie icu_case) = Ok case_runs.
Proof. vm_cast_no_check (eq_refl (Ok case_runs)). Qed.
Lemma case_runs_ok : runs_ok (get (casePropsTrie icu_case)) case_runs 0x10FFFF.
Proof. apply trie_runs_correct; [exact case_runs_eq|split; discriminate|reflexivity]. Qed.
Lemma case_top c : 0x10FFFF <= c -> get (casePropsTrie icu_case) c = Ok 0.
Proof.
  intros H. unfold get, indexFromCodePoint.
  replace (c <? 0xD800) with false by (symmetry; apply Z.ltb_ge; lia).
  replace (c <=? 0xFFFF) with false by (symmetry; apply Z.leb_gt; lia).
  replace (c >=? 0x10FFFF) with true by (symmetry; apply Z.geb_le; lia). vm_compute. reflexivity.
Qed.

(** ** The refinement theorems speak about every shipped code point *)
Definition word_of (i : Z) : Z := match aget (exceptions icu_case) i with Ok x => x | Err _ => 0 end.
Fixpoint parse_slots (w : Z) (dbl : bool) (k : nat) (n : Z) (i : Z) : list (option Z) * Z :=
  match k with
  | O => ([], i)
  | S m => if Z.testbit w n then
             let (r, j) := parse_slots w dbl m (n + 1) (if dbl then i + 2 else i + 1) in
             (Some (if dbl then word_of i * 65536 + word_of (i + 1) else word_of i) :: r, j)
           else let (r, j) := parse_slots w dbl m (n + 1) i in (None :: r, j)
  end.
Definition take_words (i n : Z) : list Z := map (fun k => word_of (i + Z.of_nat k)) (seq 0 (Z.to_nat n)).
Definition parse (i : Z) : exc :=
  let w := word_of i in
  let (sl, j) := parse_slots w (Z.testbit w 8) 8 0 (i + 1) in
  let f := match nth 7 sl None with Some f => f | None => 0 end in
  let l1 := f mod 16 in let l2 := f / 16 mod 16 in let l3 := f / 256 mod 16 in let l4 := f / 4096 in
  mkExc sl (Z.testbit w 8) (Z.testbit w 10) (Z.testbit w 14) (Z.testbit w 9) (Z.testbit w 11) (Z.testbit w 12) (Z.testbit w 13) (Z.testbit w 15)
    (take_words j l1) (take_words (j + l1) l2) (take_words (j + l1 + l2) l3) (take_words (j + l1 + l2 + l3) l4).
Definition unitb (u : Z) : bool := (0 <=? u) && (u <? 65536).
Definition exc_okb (E : exc) : bool :=
  Nat.eqb (length (e_slots E)) 8 &&
  forallb (fun o => match o with Some v => (0 <=? v) && (v <? (if e_double E then 2 ^ 32 else 2 ^ 16)) | None => true end) (e_slots E) &&
  (zlen (e_lower E) <? 16) && (zlen (e_fold E) <? 16) && (zlen (e_upper E) <? 16) && (zlen (e_title E) <? 16) &&
  match slot E 7 with
  | Some f => f =? zlen (e_lower E) + 16 * zlen (e_fold E) + 256 * zlen (e_upper E) + 4096 * zlen (e_title E)
  | None => (zlen (e_lower E) =? 0) && (zlen (e_fold E) =? 0) && (zlen (e_upper E) =? 0) && (zlen (e_title E) =? 0)
  end && forallb unitb (e_lower E ++ e_upper E ++ e_title E).
Lemma zlen_nil_inv {A} (l : list A) : zlen l = 0 -> l = [].
Proof. unfold zlen. destruct l; [reflexivity|cbn [length]; lia]. Qed.
Lemma exc_okb_ok E : exc_okb E = true -> exc_ok E.
Proof.
  unfold exc_okb. rewrite !andb_true_iff. intros [[[[[[[H1 H2] H3] H4] H5] H6] H7] H8]. constructor; try lia.
  - apply Forall_forall. rewrite forallb_forall in H2. intros o Ho.  specialize (H2 o Ho). destruct o; [|exact I]. destruct (e_double E); lia.
  - destruct (slot E 7); [lia|]. rewrite !andb_true_iff, !Z.eqb_eq in H7. destruct H7 as [[[? ?] ?] ?]. repeat split; apply zlen_nil_inv; assumption.
  - apply Forall_forall. rewrite forallb_forall in H8. intros u Hu. specialize (H8 u Hu). unfold unitb in H8. lia.
Qed.
Fixpoint storedb (i : Z) (l : list Z) : bool :=
  match l with [] => true | x :: r => match aget (exceptions icu_case) i with Ok y => x =? y | Err _ => false end && storedb (i + 1) r end.
Lemma storedb_ok l : forall i, storedb i l = true -> stored (exceptions icu_case) i l.
Proof.
  induction l as [|x r IH]; intros i H k Hk; [cbn in Hk; lia|]. cbn [storedb] in H. apply andb_true_iff in H as [H1 H2].
  destruct k as [|k]; [rewrite Z.add_0_r; cbn [nth]; destruct (aget _ i); [apply Z.eqb_eq in H1; congruence|discriminate]|].
  cbn [nth]. rewrite <- (IH (i + 1) H2 k) by (cbn [length] in Hk; lia). f_equal. lia.
Qed.
Definition info_ok (p : Z) : bool :=
  (0 <=? p) && (p <? 65536) &&
  (if Z.testbit p 3 then let i := p / 16 in exc_okb (parse i) && storedb i (exc_words (parse i)) else true).
Lemma info_checked : forallb (fun r => let '(a, b, p) := r in info_ok p) case_runs && info_ok 0 = true.
Proof. vm_compute. reflexivity. Qed.
Lemma split3 p : 0 <= p -> p = p mod 4 + 4 * (p / 4 mod 2) + 8 * (p / 8 mod 2) + 16 * (p / 16).
Proof.
  intros H. pose proof (cut0 p 2 ltac:(lia)). pose proof (cut p 2 1 ltac:(lia) ltac:(lia)). pose proof (cut p 3 1 ltac:(lia) ltac:(lia)).
  change (2 + 1) with 3 in *. change (3 + 1) with 4 in *. change (2 ^ 2) with 4 in *. change (2 ^ 1) with 2 in *.
  change (2 ^ 3) with 8 in *. change (2 ^ 4) with 16 in *. lia.
Qed.
Lemma info_exc c p : get (casePropsTrie icu_case) c = Ok p -> info_ok p = true ->
  (exists E, exc_ok E /\ has_exc icu_case c (p mod 4) E) \/ (exists delta, has_delta icu_case c (p mod 4) delta).
Proof.
  intros G H. unfold info_ok in H. rewrite !andb_true_iff in H. destruct H as [[H1 H2] H3]. apply Z.leb_le in H1. apply Z.ltb_lt in H2.
  pose proof (split3 p H1) as S. pose proof (Z.mod_pos_bound p 4 ltac:(lia)). pose proof (Z.mod_pos_bound (p / 4) 2 ltac:(lia)).
  pose proof (Z.mod_pos_bound (p / 8) 2 ltac:(lia)).
  assert (B : Z.testbit p 3 = (p / 8 mod 2 =? 1)).
  { rewrite Z.testbit_odd, Z.shiftr_div_pow2 by lia. change (2 ^ 3) with 8. rewrite Zmod_odd. destruct (Z.odd (p / 8)); reflexivity. }
  rewrite B in H3. destruct (p / 8 mod 2 =? 1) eqn:Q.
  - left. apply andb_true_iff in H3 as [K ST]. exists (parse (p / 16)). split; [apply exc_okb_ok; exact K|].
    exists (p / 16), (p / 4 mod 2). split; [apply Z.div_pos; lia|]. split; [lia|]. split; [lia|].
    split; [rewrite G; f_equal; lia|apply storedb_ok; exact ST].
  - right. exists (signed 9 (p / 128)). exists (p / 4 mod 2), (p / 16 mod 8).
    pose proof (cut p 4 3 ltac:(lia) ltac:(lia)) as C. change (2 ^ (4 + 3)) with 128 in C. change (2 ^ 4) with 16 in C. change (2 ^ 3) with 8 in C.
    assert (R : 0 <= p / 128 < 512) by (split; [apply Z.div_pos; lia|apply Z.div_lt_upper_bound; lia]).
    pose proof (signed_range 9 (p / 128) ltac:(lia) R) as SR. change (2 ^ (9 - 1)) with 256 in SR.
    pose proof (Z.mod_pos_bound (p / 16) 8 ltac:(lia)).
    split; [lia|]. split; [lia|]. split; [lia|]. split; [exact SR|]. rewrite G. f_equal.
    assert (M : signed 9 (p / 128) mod 512 = p / 128).
    { unfold signed. change (2 ^ (9 - 1)) with 256. change (2 ^ 9) with 512. destruct (p / 128 <? 256); [apply Z.mod_small; exact R|].
      symmetry. apply (Z.mod_unique _ 512 (-1)); lia. }
    rewrite M. lia.
Qed.
Lemma case_info c : 0 <= c <= 0x10FFFF -> exists ty,
  (exists E, exc_ok E /\ has_exc icu_case c ty E) \/ (exists delta, has_delta icu_case c ty delta).
Proof.
  intros Hc. pose proof info_checked as F. apply andb_true_iff in F as [F F0]. rewrite forallb_forall in F.
  destruct (Z.eq_dec c 0x10FFFF) as [->|N].
  - exists (0 mod 4). apply (info_exc _ 0); [apply case_top; lia|exact F0].
  - destruct (by_runs _ _ _ (fun _ p => info_ok p = true) case_runs_ok) with (c := c) as (p & G & I); [|lia|].
    + intros a b v Hin x _. exact (F _ Hin).
    + exists (p mod 4). apply (info_exc c p G I).
Qed.

(** ** Checks over all code points

    Where the properties word has no type and no exception all mappings are the identity. *)
Definition identity_at (c : Z) : Prop :=
  toLower icu_case c = Ok c /\ toUpper icu_case c = Ok c /\ toTitle icu_case c = Ok c /\
  toFullLower icu_case c = Ok [c] /\ toFullUpper icu_case c = Ok [c] /\ toFullTitle icu_case c = Ok [c].
Lemma uncased c p : 0 <= c <= 0x10FFFF -> get (casePropsTrie icu_case) c = Ok p -> (Z.land p 0xB =? 0) = true -> identity_at c.
Proof.
  intros Hc G Z0. apply Z.eqb_eq in Z0.
  assert (B : forall k, 0 <= k -> Z.testbit 0xB k = true -> Z.testbit p k = false).
  { intros k Hk Hb. pose proof (f_equal (fun z => Z.testbit z k) Z0) as F. cbv beta in F. rewrite Z.land_spec, Hb, andb_true_r, Z.bits_0 in F. exact F. }
  assert (B0 := B 0 ltac:(lia) eq_refl). assert (B1 := B 1 ltac:(lia) eq_refl). assert (B3 := B 3 ltac:(lia) eq_refl).
  assert (X : hasException p = false) by (unfold hasException; change UCASE_EXCEPTION with (Z.shiftl 1 3); rewrite land_bit by lia; exact B3).
  assert (U : isUpperOrTitle p = false)
    by (unfold isUpperOrTitle; change (Z.land UCASE_UPPER UCASE_TITLE) with (Z.shiftl 1 1); rewrite land_bit by lia; exact B1).
  assert (T : (getTypeFromProps p =? UCASE_LOWER) = false).
  { apply Z.eqb_neq. intros Q. pose proof (f_equal (fun z => Z.testbit z 0) Q) as F. cbv beta in F. unfold getTypeFromProps, UCASE_TYPE_MASK in F.
    rewrite Z.land_spec, B0 in F. discriminate. }
  assert (P : py_chr c = Ok [c]) by (unfold py_chr; replace ((0 <=? c) && (c <=? 1114111)) with true by lia; reflexivity).
  unfold identity_at, toLower, toUpper, toTitle, toFullUpper, toFullTitle, toFullLower, toUpperOrTitle. rewrite P. cbn [bind].
  rewrite G. cbn [bind]. rewrite X, U, T. auto 10.
Qed.
Lemma case_checked (each : Z -> bool) (P : Z -> Prop) :
  check_runs (fun a b p => Z.land p 0xB =? 0) (fun c p => each c) case_runs = true ->
  (forall c, 0 <= c <= 0x10FFFF -> identity_at c -> P c) -> (forall c, each c = true -> P c) ->
  forall c, 0 <= c <= 0x10FFFF -> P c.
Proof.
  intros H HI HE c Hc. destruct (Z.eq_dec c 0x10FFFF) as [->|N].
  - apply HI; [lia|]. apply (uncased _ 0); [lia|apply case_top; lia|reflexivity].
  - destruct (by_runs _ _ _ (fun x p => (Z.land p 0xB =? 0) = true \/ P x) case_runs_ok) with (c := c) as (p & G & [I|I]); [|lia| |exact I].
    + apply (check_runs_ok _ _ _ _ H); [intros; left; assumption|intros; right; apply HE; assumption].
    + apply HI; [exact Hc|]. apply (uncased c p Hc G I).
Qed.

(** ** Simple mappings *)
Definition valid (c : Z) : bool := (0 <=? c) && (c <=? 0x10FFFF).
Definition okc (f : Z -> res Z) (c : Z) : bool := match f c with Ok d => valid d && match f d with Ok e => e =? d | Err _ => false end | Err _ => false end.
Definition simple_each (c : Z) : bool := okc (toLower icu_case) c && okc (toUpper icu_case) c && okc (toTitle icu_case) c.
Lemma simple_checked : check_runs (fun a b p => Z.land p 0xB =? 0) (fun c p => simple_each c) case_runs = true.
Proof. vm_compute. reflexivity. Qed.
Definition idempotent_at (f : Z -> res Z) (c : Z) : Prop := exists d, f c = Ok d /\ 0 <= d <= 0x10FFFF /\ f d = Ok d.
Lemma okc_ok f c : okc f c = true -> idempotent_at f c.
Proof.
  unfold okc, idempotent_at, valid. destruct (f c) as [d|]; [|discriminate]. intros H. apply andb_true_iff in H as [H1 H2]. exists d.
  split; [reflexivity|]. split; [lia|]. destruct (f d) as [e|]; [|discriminate]. apply Z.eqb_eq in H2. congruence.
Qed.
Lemma simple_shipped c : 0 <= c <= 0x10FFFF ->
  idempotent_at (toLower icu_case) c /\ idempotent_at (toUpper icu_case) c /\ idempotent_at (toTitle icu_case) c.
Proof.
  revert c. apply (case_checked simple_each); [exact simple_checked| |].
  - intros x Hx (L & U & T & _). repeat split; exists x; auto.
  - intros x H. unfold simple_each in H. rewrite !andb_true_iff in H. destruct H as [[? ?] ?]. repeat split; apply okc_ok; assumption.
Qed.

(** ** Full mappings *)
Definition charb (x : Z) : bool := valid x && negb ((0xD800 <=? x) && (x <=? 0xDFFF)).
Definition full_ok (full : Z -> res (list Z)) (simple : Z -> res Z) (c : Z) : bool :=
  match full c, simple c with
  | Ok l, Ok d => (1 <=? zlen l) && (zlen l <=? 3) && forallb charb l && match l with [x] => x =? d | _ => true end
  | _, _ => false
  end.
Definition full_each (c : Z) : bool :=
  full_ok (toFullLower icu_case) (toLower icu_case) c && full_ok (toFullUpper icu_case) (toUpper icu_case) c &&
  full_ok (toFullTitle icu_case) (toTitle icu_case) c.
Lemma full_checked : check_runs (fun a b p => Z.land p 0xB =? 0) (fun c p => full_each c) case_runs = true.
Proof. vm_compute. reflexivity. Qed.
(** one to three characters, surrogates only for a surrogate, and the simple mapping if it is one character *)
Definition good_full (full : Z -> res (list Z)) (simple : Z -> res Z) (c : Z) : Prop :=
  exists l d, full c = Ok l /\ simple c = Ok d /\ 1 <= zlen l <= 3 /\
    Forall (fun x => 0 <= x <= 0x10FFFF /\ (0xD800 <= x <= 0xDFFF -> x = c)) l /\ (zlen l = 1 -> l = [d]).
Lemma full_ok_ok full simple c : full_ok full simple c = true -> good_full full simple c.
Proof.
  unfold full_ok, good_full. destruct (full c) as [l|]; [|discriminate]. destruct (simple c) as [d|]; [|discriminate].
  rewrite !andb_true_iff. intros [[[H1 H2] H3] H4]. exists l, d. split; [reflexivity|]. split; [reflexivity|]. split; [lia|]. split.
  - apply Forall_forall. rewrite forallb_forall in H3. intros x Hx. specialize (H3 x Hx). unfold charb, valid in H3. lia.
  - destruct l as [|x [|y r]]; unfold zlen; cbn [length]; intros; try lia. apply Z.eqb_eq in H4. congruence.
Qed.
Lemma full_shipped c : 0 <= c <= 0x10FFFF ->
  good_full (toFullLower icu_case) (toLower icu_case) c /\ good_full (toFullUpper icu_case) (toUpper icu_case) c /\
  good_full (toFullTitle icu_case) (toTitle icu_case) c.
Proof.
  revert c. apply (case_checked full_each); [exact full_checked| |].
  - intros x Hx (L & U & T & FL & FU & FT).
    assert (F : Forall (fun y => 0 <= y <= 0x10FFFF /\ (0xD800 <= y <= 0xDFFF -> y = x)) [x]) by (repeat constructor; lia).
    repeat split; exists [x], x; (split; [assumption|]); (split; [assumption|]); (split; [unfold zlen; cbn; lia|]); (split; [exact F|reflexivity]).
  - intros x H. unfold full_each in H. rewrite !andb_true_iff in H. destruct H as [[? ?] ?]. repeat split; apply full_ok_ok; assumption.
Qed.
(** U+0130 is the only character whose lower case has more than one character *)
Lemma full_lower_checked : check_runs (fun a b p => Z.land p 0xB =? 0)
  (fun c p => match toFullLower icu_case c with Ok [_] => true | Ok _ => c =? 0x130 | _ => false end) case_runs = true.
Proof. vm_compute. reflexivity. Qed.
Lemma full_lower_shipped c : 0 <= c <= 0x10FFFF -> c <> 0x130 -> exists d, toLower icu_case c = Ok d /\ toFullLower icu_case c = Ok [d].
Proof.
  intros Hc N. assert (X : forall c, 0 <= c <= 0x10FFFF -> c <> 0x130 -> exists d, toFullLower icu_case c = Ok [d]).
  { clear c Hc N. apply (case_checked (fun c => match toFullLower icu_case c with Ok [_] => true | Ok _ => c =? 0x130 | _ => false end)
      (fun c => c <> 0x130 -> exists d, toFullLower icu_case c = Ok [d])); [exact full_lower_checked| |].
    - intros x Hx (_ & _ & _ & FL & _) _. exists x. exact FL.
    - intros x H Nx. destruct (toFullLower icu_case x) as [[|y [|z r]]|]; try lia; try discriminate. exists y. reflexivity. }
  destruct (X c Hc N) as (d & E). destruct (full_shipped c Hc) as ((l & d' & E1 & E2 & _ & _ & S) & _). exists d. split; [|exact E].
  assert (l = [d]) by congruence. subst l. assert ([d] = [d']) by (apply S; reflexivity). congruence.
Qed.

(** ** Round trips *)
Definition then_ (f g : Z -> res Z) (c : Z) : res Z := let* d := f c in g d.
Definition upper_lower_exceptions : list Z := [181; 305; 383; 837; 962; 976; 977; 981; 982; 1008; 1009; 1013; 7296;
  7297; 7298; 7299; 7300; 7301; 7302; 7303; 7304; 7835; 8126].
Definition lower_upper_exceptions : list Z := [304; 1012; 7838; 8486; 8490; 8491].
Definition same (a b : res Z) : bool := match a, b with Ok x, Ok y => x =? y | _, _ => false end.
Definition memb (c : Z) (l : list Z) : bool := existsb (Z.eqb c) l.
Definition trip_each (c : Z) : bool :=
  let l := toLower icu_case in let u := toUpper icu_case in let t := toTitle icu_case in
  Bool.eqb (same (then_ u l c) (l c)) (negb (memb c upper_lower_exceptions)) &&
  Bool.eqb (same (then_ l u c) (u c)) (negb (memb c lower_upper_exceptions)) &&
  same (then_ t u c) (u c) && Bool.eqb (same (then_ t l c) (l c)) (negb (memb c upper_lower_exceptions)).
Lemma trip_checked : check_runs (fun a b p => (Z.land p 0xB =? 0) &&
    forallb (fun x => negb ((a <=? x) && (x <? b))) (upper_lower_exceptions ++ lower_upper_exceptions)) (fun c p => trip_each c) case_runs = true.
Proof. vm_compute. reflexivity. Qed.
Lemma same_ok a b : (exists x, a = Ok x) -> same a b = true <-> a = b.
Proof.
  intros (x & ->). unfold same. destruct b as [y|]; [|split; discriminate]. rewrite Z.eqb_eq. split; congruence.
Qed.
Lemma memb_ok c l : memb c l = true <-> In c l.
Proof.
  unfold memb. rewrite existsb_exists. split; [intros (x & H & E); apply Z.eqb_eq in E; congruence|intros H; exists c; split; [exact H|apply Z.eqb_refl]].
Qed.
Lemma trip_shipped c : 0 <= c <= 0x10FFFF ->
  (then_ (toUpper icu_case) (toLower icu_case) c = toLower icu_case c <-> ~ In c upper_lower_exceptions) /\
  (then_ (toLower icu_case) (toUpper icu_case) c = toUpper icu_case c <-> ~ In c lower_upper_exceptions) /\
  then_ (toTitle icu_case) (toUpper icu_case) c = toUpper icu_case c /\
  (then_ (toTitle icu_case) (toLower icu_case) c = toLower icu_case c <-> ~ In c upper_lower_exceptions).
Proof.
  intros Hc.
  assert (X : trip_each c = true).
  { destruct (Z.eq_dec c 0x10FFFF) as [->|N]; [vm_compute; reflexivity|].
    destruct (by_runs _ _ _ (fun x p => ((Z.land p 0xB =? 0) = true /\ ~ In x upper_lower_exceptions /\ ~ In x lower_upper_exceptions) \/ trip_each x = true)
      case_runs_ok) with (c := c) as (p & G & [(I & N1 & N2)|I]); [|lia| |exact I].
    - apply (check_runs_ok _ _ _ _ trip_checked); [|intros; right; assumption]. intros a b v x H Hx. left.
      apply andb_true_iff in H as [H1 H2]. split; [exact H1|]. rewrite forallb_forall in H2.
      assert (M : forall y, In y (upper_lower_exceptions ++ lower_upper_exceptions) -> y <> x).
      { intros y Hy ->. specialize (H2 x Hy). lia. }
      split; intros Hin; apply (M x); auto using in_or_app.
    - destruct (uncased c p Hc G I) as (L & U & T & _). unfold trip_each, then_. rewrite L, U, T. cbn [bind]. rewrite L, U.
      unfold same. rewrite Z.eqb_refl.
      assert (E1 : memb c upper_lower_exceptions = false) by (destruct (memb c upper_lower_exceptions) eqn:Q; [apply memb_ok in Q; tauto|reflexivity]).
      assert (E2 : memb c lower_upper_exceptions = false) by (destruct (memb c lower_upper_exceptions) eqn:Q; [apply memb_ok in Q; tauto|reflexivity]).
      rewrite E1, E2. reflexivity. }
  unfold trip_each in X. rewrite !andb_true_iff in X. destruct X as [[[X1 X2] X3] X4].
  destruct (simple_shipped c Hc) as ((l & EL & Rl & _) & (u & EU & Ru & _) & (t & ET & Rt & _)).
  assert (TL : exists x, then_ (toUpper icu_case) (toLower icu_case) c = Ok x).
  { unfold then_. rewrite EU. destruct (simple_shipped u Ru) as ((x & Ex & _) & _). exists x. exact Ex. }
  assert (TU : exists x, then_ (toLower icu_case) (toUpper icu_case) c = Ok x).
  { unfold then_. rewrite EL. destruct (simple_shipped l Rl) as (_ & (x & Ex & _) & _). exists x. exact Ex. }
  assert (TT : exists x, then_ (toTitle icu_case) (toUpper icu_case) c = Ok x).
  { unfold then_. rewrite ET. destruct (simple_shipped t Rt) as (_ & (x & Ex & _) & _). exists x. exact Ex. }
  assert (TT2 : exists x, then_ (toTitle icu_case) (toLower icu_case) c = Ok x).
  { unfold then_. rewrite ET. destruct (simple_shipped t Rt) as ((x & Ex & _) & _). exists x. exact Ex. }
  assert (B : forall b c0 l0, Bool.eqb b (negb (memb c0 l0)) = true -> b = true <-> ~ In c0 l0).
  { intros b c0 l0 Q. apply eqb_prop in Q. rewrite Q, <- memb_ok. destruct (memb c0 l0); cbn [negb]; intuition congruence. }
  split; [rewrite <- (same_ok _ _ TL); apply B; exact X1|]. split; [rewrite <- (same_ok _ _ TU); apply B; exact X2|].
  split; [apply (same_ok _ _ TT); exact X3|]. rewrite <- (same_ok _ _ TT2). apply B. exact X4.
Qed.

(** ** ASCII *)
Definition ascii_each (c : Z) : bool :=
  let lo := if (0x41 <=? c) && (c <=? 0x5A) then c + 32 else c in
  let up := if (0x61 <=? c) && (c <=? 0x7A) then c - 32 else c in
  let is r x := match r with Ok y => y =? x | Err _ => false end in
  let one r x := match r with Ok [y] => y =? x | _ => false end in
  is (toLower icu_case c) lo && is (toUpper icu_case c) up && is (toTitle icu_case c) up &&
  one (toFullLower icu_case c) lo && one (toFullUpper icu_case c) up && one (toFullTitle icu_case c) up.
Lemma ascii_checked : forallb ascii_each (zrange 0 128) = true.
Proof. vm_compute. reflexivity. Qed.
Lemma ascii_shipped c : 0 <= c < 128 ->
  toLower icu_case c = Ok (if (0x41 <=? c) && (c <=? 0x5A) then c + 32 else c) /\
  toUpper icu_case c = Ok (if (0x61 <=? c) && (c <=? 0x7A) then c - 32 else c) /\ toTitle icu_case c = toUpper icu_case c /\
  toFullLower icu_case c = Ok [if (0x41 <=? c) && (c <=? 0x5A) then c + 32 else c] /\
  toFullUpper icu_case c = Ok [if (0x61 <=? c) && (c <=? 0x7A) then c - 32 else c] /\ toFullTitle icu_case c = toFullUpper icu_case c.
Proof.
  intros Hc. pose proof ascii_checked as F. rewrite forallb_forall in F. specialize (F c). unfold ascii_each in F.
  assert (I : In c (zrange 0 128)) by (apply zrange_spec; lia). specialize (F I). cbv zeta in F. rewrite !andb_true_iff in F.
  destruct F as [[[[[F1 F2] F3] F4] F5] F6]. revert F1 F2 F3 F4 F5 F6.
  generalize (if (0x41 <=? c) && (c <=? 0x5A) then c + 32 else c). generalize (if (0x61 <=? c) && (c <=? 0x7A) then c - 32 else c). intros up lo.
  destruct (toLower icu_case c), (toUpper icu_case c), (toTitle icu_case c), (toFullLower icu_case c) as [[|? [|? ?]]|], (toFullUpper icu_case c) as [[|? [|? ?]]|],
    (toFullTitle icu_case c) as [[|? [|? ?]]|]; try discriminate. rewrite !Z.eqb_eq. intros -> -> -> -> -> ->. auto 10.
Qed.
