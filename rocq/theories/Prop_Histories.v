(** * Property C98: all histories of calls on UnicodeSet objects, and all observations after them *)
From Coq Require Import ZArith List Bool Lia Sorted ZifyBool.
From Verif Require Import Py UnicodeSet UnicodeSetFacts SpecSet UnicodeSetHeap UnicodeSetReach UnicodeSetLaws.
Import ListNotations.
Open Scope Z_scope.

(** The calls of SpecSet.v with any code points as bounds.  [removeRange], [retainRange] and
    [complementRange] do nothing unless start < end; [addRange] does nothing if end < start. *)
Definition idle (k : call) : Prop :=
  match k with
  | AddRange _ a b => b < a
  | RemoveRange _ a b | RetainRange _ a b | ComplementRange _ a b => b <= a
  | _ => False
  end.
Definition idleb (k : call) : bool :=
  match k with
  | AddRange _ a b => b <? a
  | RemoveRange _ a b | RetainRange _ a b | ComplementRange _ a b => b <=? a
  | _ => false
  end.
Definition actual_call (st : store) (k : call) : store * outcome := if idleb k then (st, Done) else spec_call st k.
Fixpoint actual_run (st : store) (ks : list call) : store * list outcome :=
  match ks with
  | [] => (st, [])
  | k :: r => let (st1, o) := actual_call st k in let (st2, os) := actual_run st1 r in (st2, o :: os)
  end.
(** existing objects and code points *)
Definition sound_call (n : nat) (k : call) : Prop :=
  match k with
  | AddRange o a b | RemoveRange o a b | RetainRange o a b | ComplementRange o a b => (o < n)%nat /\ is_cp a /\ is_cp b
  | _ => legal_call n k
  end.
Fixpoint sound_run (n : nat) (ks : list call) : Prop :=
  match ks with
  | [] => True
  | k :: r => sound_call n k /\ sound_run (if creates k then S n else n) r
  end.

Lemma idle_iff k : idleb k = true <-> idle k.
Proof. destruct k; cbn [idleb idle]; rewrite ?Z.ltb_lt, ?Z.leb_le; intuition discriminate. Qed.
Lemma sound_legal n k : sound_call n k -> idleb k = false -> legal_call n k.
Proof. destruct k; cbn [sound_call idleb legal_call]; auto; intros (A & B & C) D; repeat split; auto; try apply B; try apply C; lia. Qed.

(** an idle call leaves every list as it is *)
Lemma idle_sim h st k : R h st -> sound_call (length st) k -> idleb k = true -> Forall built (lmem h) ->
  exists h', do_call h k = Ok (h', Done) /\ R h' st /\ Forall built (lmem h').
Proof.
  assert (RI : forall h st o a l, R h st -> nth_error (omem h) o = Some a -> nth_error (lmem h) a = Some l -> inplace h a l = h).
  { intros h0 st0 o a l _ _ E. unfold inplace. destruct h0 as [lm om]. cbn in *. f_equal. revert a E. induction lm as [|x r IH]; intros [|a] E; try discriminate; cbn in *; [congruence|f_equal; auto]. }
  intros HR L I FB. destruct k; try discriminate; cbn [sound_call idleb] in *; destruct L as (Lo & La & Lb);
    destruct (R_look _ _ _ HR Lo) as (x & l & Ea & L1 & El & D1); cbn [do_call]; unfold addRange_call, range_call; rewrite L1; cbn [bind].
  - rewrite addRange_cases by (auto; lia). cbn [bind]. rewrite range_noop by auto. replace (a <? b) with false by lia.
    eexists. split; [reflexivity|]. rewrite (RI h st o x l HR Ea El). auto.
  - rewrite range_noop by auto. replace (a <? b) with false by lia. eauto.
  - rewrite range_noop by auto. replace (a <? b) with false by lia. eauto.
  - rewrite range_noop by auto. replace (a <? b) with false by lia. eauto.
Qed.

Lemma built_replace lm a l : Forall built lm -> built l -> Forall built (replace lm a l).
Proof. intros F B. revert a. induction F; intros [|a]; cbn; auto. Qed.
Lemma look_built h o a l : Forall built (lmem h) -> look h o = Ok (a, l) -> built l.
Proof.
  unfold look. intros F. destruct (nth_error (omem h) o); [|discriminate]. destruct (nth_error (lmem h) n) eqn:E; [|discriminate]. intros [= <- <-].
  rewrite Forall_forall in F. apply F. eapply nth_error_In; eauto.
Qed.
Lemma bind_inv {A B} (x : res A) (k : A -> res B) y : bind x k = Ok y -> exists a, x = Ok a /\ k a = Ok y.
Proof. destruct x; cbn; [eauto|discriminate]. Qed.
Ltac open_bind E := let p := fresh "p" in let E1 := fresh "E1" in apply bind_inv in E as (p & E1 & E).

Lemma rebind_built h o l : Forall built (lmem h) -> built l -> Forall built (lmem (rebind h o l)).
Proof. intros F B. cbn. apply Forall_app. auto. Qed.
Lemma merge_built f h o p h' out : (forall l m r, built l -> built m -> f l m = Ok r -> built r) ->
  Forall built (lmem h) -> merge_call f h o p = Ok (h', out) -> Forall built (lmem h').
Proof.
  intros C F E. unfold merge_call in E. open_bind E. destruct p0 as [a l]. open_bind E. destruct p0 as [a2 m]. open_bind E. injection E as <- _.
  apply rebind_built; auto. eapply C; eauto; eapply look_built; eauto.
Qed.
Lemma range_built f h o a b h' out : (forall l r, built l -> f l a b = Ok r -> built r) ->
  Forall built (lmem h) -> range_call f h o a b = Ok (h', out) -> Forall built (lmem h').
Proof.
  intros C F E. unfold range_call in E. open_bind E. destruct p as [x l]. destruct (pin a <? pin b); [|injection E as <- _; auto].
  open_bind E. injection E as <- _. apply rebind_built; auto. eapply C; eauto. eapply look_built; eauto.
Qed.
Lemma operator_built f h o p h' out : (forall l m r, built l -> built m -> f l m = Ok r -> built r) ->
  Forall built (lmem h) -> operator_call f h o p = Ok (h', out) -> Forall built (lmem h').
Proof.
  intros C F E. unfold operator_call, copy_call in E. open_bind E. destruct p0 as [h1 o1]. open_bind E1. destruct p0 as [a l]. injection E1 as <- <-.
  open_bind E. destruct p0 as [h2 o2]. injection E as <- _. eapply merge_built; [exact C| |exact E1]. cbn. apply Forall_app. split; [exact F|]. constructor; [|constructor].
  eapply look_built; eauto.
Qed.
Lemma do_call_built h n k h' out : Forall built (lmem h) -> sound_call n k -> do_call h k = Ok (h', out) -> Forall built (lmem h').
Proof.
  intros F L E. destruct k; cbn [do_call sound_call legal_call] in *.
  - injection E as <- _. cbn. apply Forall_app. split; [exact F|]. constructor; [exact b_new|constructor].
  - injection E as <- _. cbn. apply Forall_app. split; [exact F|]. constructor; [exact (b_int x L)|constructor].
  - injection E as <- _. cbn. apply Forall_app. split; [exact F|]. constructor; [apply (b_range start stop); lia|constructor].
  - unfold copy_call in E. open_bind E. destruct p as [a l]. injection E as <- _. cbn. apply Forall_app. split; [exact F|]. constructor; [|constructor]. eapply look_built; eauto.
  - unfold add_call in E. open_bind E. destruct p as [a l]. open_bind E. injection E as <- _. apply built_replace; auto. eapply b_add; eauto; [eapply look_built; eauto|apply L].
  - unfold addRange_call in E. open_bind E. destruct p as [x l]. open_bind E. destruct p as [r v].
    assert (B : built r) by (eapply b_addRange; eauto; [eapply look_built; eauto|apply L|apply L]).
    destruct v; [destruct (pin a <? pin b)|]; injection E as <- _; try (apply built_replace; auto). apply rebind_built; auto.
  - eapply merge_built; [exact b_addAll|exact F|exact E].
  - eapply range_built; [|exact F|exact E]. intros l r B Q. exact (b_removeRange l a b r B (proj1 (proj2 L)) (proj2 (proj2 L)) Q).
  - eapply merge_built; [exact b_removeAll|exact F|exact E].
  - eapply range_built; [|exact F|exact E]. intros l r B Q. exact (b_retainRange l a b r B (proj1 (proj2 L)) (proj2 (proj2 L)) Q).
  - eapply merge_built; [exact b_retainAll|exact F|exact E].
  - eapply range_built; [|exact F|exact E]. intros l r B Q. exact (b_complementRange l a b r B (proj1 (proj2 L)) (proj2 (proj2 L)) Q).
  - unfold complement_call in E. open_bind E. destruct p as [a l]. open_bind E. open_bind E.
    assert (B : built p0) by (eapply b_complement; eauto; eapply look_built; eauto).
    destruct (p =? LOW); injection E as <- _; [apply rebind_built; auto|apply built_replace; auto].
  - eapply merge_built; [exact b_complementAll|exact F|exact E].
  - open_bind E. destruct p as [a l]. injection E as <- _. apply rebind_built; auto. apply b_clear. eapply look_built; eauto.
  - eapply operator_built; [exact b_addAll|exact F|exact E].
  - eapply operator_built; [exact b_retainAll|exact F|exact E].
  - eapply operator_built; [exact b_removeAll|exact F|exact E].
  - eapply operator_built; [exact b_complementAll|exact F|exact E].
  - open_bind E. destruct p as [a l]. open_bind E. injection E as <- _. auto.
Qed.

Lemma actual_sim h st k : R h st -> sound_call (length st) k -> Forall built (lmem h) ->
  exists h', do_call h k = Ok (h', snd (actual_call st k)) /\ R h' (fst (actual_call st k)) /\ Forall built (lmem h') /\
  length (fst (actual_call st k)) = (if creates k then S (length st) else length st).
Proof.
  intros HR L F. unfold actual_call. destruct (idleb k) eqn:I.
  - destruct (idle_sim h st k HR L I F) as (h' & E & R1 & F1). exists h'. split; [exact E|]. split; [exact R1|]. split; [exact F1|]. destruct k; try discriminate; reflexivity.
  - pose proof (sound_legal _ _ L I) as LL. destruct (do_call_sim h st k HR LL) as (h' & E & R1). exists h'. split; [exact E|]. split; [exact R1|].
    split; [eapply do_call_built; eauto|]. apply spec_call_len. exact LL.
Qed.
Lemma actual_run_sim : forall ks h st, R h st -> sound_run (length st) ks -> Forall built (lmem h) ->
  exists h', run_calls h ks = Ok (h', snd (actual_run st ks)) /\ R h' (fst (actual_run st ks)) /\ Forall built (lmem h').
Proof.
  induction ks as [|k ks IH]; intros h st HR L F; cbn [run_calls actual_run].
  - exists h; auto.
  - destruct L as [L1 L2]. destruct (actual_sim h st k HR L1 F) as (h1 & E1 & HR1 & F1 & N). rewrite E1. cbn [bind]. rewrite <- N in L2.
    destruct (actual_call st k) as [st1 o1]. cbn [fst snd] in *. destruct (IH h1 st1 HR1 L2 F1) as (h2 & E2 & HR2 & F2). rewrite E2. cbn [bind].
    destruct (actual_run st1 ks) as [st2 os]. cbn [fst snd] in *. eauto.
Qed.

(** ** C98

    Any history whatever of calls on existing objects with code points runs without an error and
    gives the outcomes of the same history on mathematical sets in which the calls of [idle] are
    skipped.  Afterwards every object is a set that enumerates exactly the members, in order and
    without repetition, and counts them. *)
Theorem C98_histories : forall ks, sound_run 0 ks ->
  exists h, run_calls empty_heap ks = Ok (h, snd (actual_run [] ks)) /\
  let st := fst (actual_run [] ks) in
  forall o, (o < length st)%nat -> exists a l es, look h o = Ok (a, l) /\ built l /\ is_set l (sget st o) /\
    iter l = Ok es /\ StronglySorted Z.lt es /\ (forall c, In c es <-> is_cp c /\ sget st o c = true) /\ size l = Ok (Z.of_nat (length es)).
Proof.
  intros ks L. destruct (actual_run_sim ks empty_heap [] R_empty L ltac:(constructor)) as (h & E & HR & F).
  exists h. split; [exact E|]. cbn zeta. intros o Ho. destruct (R_look _ _ _ HR Ho) as (a & l & Ea & L1 & El & D).
  assert (B : built l) by (eapply look_built; eauto). pose proof (denotes_is_set _ _ D) as I.
  destruct (iter_ok l B) as (es & E1 & S1 & S2 & M). exists a, l, es. split; [exact L1|]. split; [exact B|]. split; [exact I|]. split; [exact E1|]. split; [exact S1|].
  split; [|exact S2]. intros c. rewrite M. split; intros [C K]; (split; [exact C|]); rewrite (I c C) in *; [congruence|f_equal; exact K].
Qed.
Print Assumptions C98_histories.
(** [idle] is what it is meant to be, and without idle calls the outcomes are those of SpecSet.v. *)
Theorem C98_no_idle_calls : forall ks, Forall (fun k => ~ idle k) ks -> forall st, actual_run st ks = spec_run st ks.
Proof.
  intros ks F. induction F as [|k ks N F IH]; intros st; [reflexivity|]. cbn [actual_run spec_run]. unfold actual_call.
  destruct (idleb k) eqn:I; [exfalso; apply N, idle_iff, I|]. destruct (spec_call st k) as [st1 o]. rewrite IH. reflexivity.
Qed.
Print Assumptions C98_no_idle_calls.

(** Objects do not share state: a call can change what is seen of its receiver only. *)
Definition receiver (k : call) : option nat :=
  match k with
  | Add o _ | AddRange o _ _ | AddAll o _ | RemoveRange o _ _ | RemoveAll o _ | RetainRange o _ _ | RetainAll o _
  | ComplementRange o _ _ | Complement o | ComplementAll o _ | Clear o => Some o
  | _ => None
  end.
Lemma look_inv h o a l : look h o = Ok (a, l) -> nth_error (omem h) o = Some a /\ nth_error (lmem h) a = Some l.
Proof. unfold look. destruct (nth_error (omem h) o) as [x|]; [|discriminate]. destruct (nth_error (lmem h) x) eqn:E; [|discriminate]. intros [= <- <-]. auto. Qed.
Lemma look_intro h o a l : nth_error (omem h) o = Some a -> nth_error (lmem h) a = Some l -> look h o = Ok (a, l).
Proof. unfold look. intros -> ->. reflexivity. Qed.
Lemma look_inplace h o p a b l m m' : NoDup (omem h) -> o <> p -> look h o = Ok (a, l) -> look h p = Ok (b, m) -> look (inplace h b m') o = Ok (a, l).
Proof.
  intros ND N A B. apply look_inv in A as [A1 A2], B as [B1 B2]. apply look_intro; [exact A1|]. cbn. rewrite replace_other; [exact A2|].
  intros ->. apply N. rewrite NoDup_nth_error in ND. apply ND; [eapply nth_error_lt; eauto|congruence].
Qed.
Lemma look_rebind h o p a l m' : o <> p -> look h o = Ok (a, l) -> look (rebind h p m') o = Ok (a, l).
Proof. intros N A. apply look_inv in A as [A1 A2]. apply look_intro; cbn; [rewrite replace_other by auto; exact A1|apply nth_error_snoc_old; exact A2]. Qed.
Lemma look_alloc h o a l m : look h o = Ok (a, l) -> look (fst (alloc h m)) o = Ok (a, l).
Proof. intros A. apply look_inv in A as [A1 A2]. apply look_intro; cbn; apply nth_error_snoc_old; auto. Qed.

Lemma frame_call : forall k h h' out o a l, NoDup (omem h) -> do_call h k = Ok (h', out) ->
  receiver k <> Some o -> look h o = Ok (a, l) -> exists a', look h' o = Ok (a', l).
Proof.
  intros k h h' out o a l ND E2 N K.
  assert (MG : forall f p q, p <> o -> merge_call f h p q = Ok (h', out) -> exists a', look h' o = Ok (a', l)).
  { intros f p q NP E. unfold merge_call in E. open_bind E. destruct p0 as [x m]. open_bind E. destruct p0 as [x2 m2]. open_bind E. injection E as <- _. exists a. apply look_rebind; auto. }
  assert (RG : forall f p x y, p <> o -> range_call f h p x y = Ok (h', out) -> exists a', look h' o = Ok (a', l)).
  { intros f p x y NP E. unfold range_call in E. open_bind E. destruct p0 as [z m]. destruct (pin x <? pin y); [open_bind E|]; injection E as <- _; exists a; [apply look_rebind; auto|exact K]. }
  assert (OP : forall f p q, operator_call f h p q = Ok (h', out) -> exists a', look h' o = Ok (a', l)).
  { intros f p q E. unfold operator_call, copy_call in E. apply bind_inv in E as ([h1 o1] & A1 & E). apply bind_inv in A1 as ([x m] & A2 & A1).
    pose proof (look_alloc h o a l (new_copy m) K) as K1. assert (HH : h1 = fst (alloc h (new_copy m))) by (injection A1 as <- _; reflexivity). subst h1. apply bind_inv in E as ([h2 o2] & A3 & E). injection E as <- _.
    unfold merge_call in A3. apply bind_inv in A3 as ([x1 m1] & A4 & A3). apply bind_inv in A3 as ([x2 m2] & A5 & A3). apply bind_inv in A3 as (r & A6 & A3). injection A3 as <- _. exists a. apply look_rebind; [|exact K1].
    intros ->. apply look_inv in K as [K _]. apply nth_error_lt in K. lia. }
  destruct k; cbn [do_call receiver] in *; eauto; try (assert (NO : o0 <> o) by congruence; eauto).
  - injection E2 as <- _. exists a. apply look_alloc. exact K.
  - injection E2 as <- _. exists a. apply look_alloc. exact K.
  - injection E2 as <- _. exists a. apply look_alloc. exact K.
  - unfold copy_call in E2. open_bind E2. destruct p as [x m]. exists a. injection E2 as <- _. exact (look_alloc h o a l (new_copy m) K).
  - unfold add_call in E2. open_bind E2. destruct p as [y m]. open_bind E2. injection E2 as <- _. exists a. exact (look_inplace h o o0 _ _ _ _ _ ND (not_eq_sym NO) K E1).
  - unfold addRange_call in E2. open_bind E2. destruct p as [y m]. open_bind E2. destruct p as [r v].
    destruct v; [destruct (pin a0 <? pin b)|]; injection E2 as <- _; exists a; try (exact (look_inplace h o o0 _ _ _ _ _ ND (not_eq_sym NO) K E1); fail). apply look_rebind; auto.
  - unfold complement_call in E2. open_bind E2. destruct p as [y m]. open_bind E2. open_bind E2. destruct (p =? LOW); injection E2 as <- _; exists a; [apply look_rebind; auto|exact (look_inplace h o o0 _ _ _ _ _ ND (not_eq_sym NO) K E1)].
  - open_bind E2. destruct p as [y m]. injection E2 as <- _. exists a. apply look_rebind; auto.
  - open_bind E2. destruct p as [y m]. open_bind E2. injection E2 as <- _. exists a. exact K.
Qed.

Theorem C98_frame : forall ks k h h' outs out o a l, sound_run 0 (ks ++ [k]) ->
  run_calls empty_heap ks = Ok (h, outs) -> do_call h k = Ok (h', out) ->
  receiver k <> Some o -> look h o = Ok (a, l) -> exists a', look h' o = Ok (a', l).
Proof.
  intros ks k h h' outs out o a l L E1 E2 N K.
  assert (LL : sound_run 0 ks).
  { revert L. generalize 0%nat. clear. induction ks as [|k0 ks IH]; intros n L; cbn [app sound_run] in *; [exact I|]. destruct L as [L1 L2]. split; [exact L1|]. apply IH. exact L2. }
  destruct (actual_run_sim ks empty_heap [] R_empty LL ltac:(constructor)) as (h0 & E0 & HR & F). rewrite E1 in E0. injection E0 as <- _.
  exact (frame_call k h h' out o a l (R_nodup _ _ HR) E2 N K).
Qed.
Print Assumptions C98_frame.

(** The case: a one-element removal is idle, a union does not share its operands. *)
Definition history98 : list call :=
  [NewRange 65 91; NewCopy 0; RemoveRange 0 70 70; RetainRange 0 67 66; Add 1 97; Union 0 1; RemoveRange 1 65 70; AddRange 2 5 4;
   Contains 0 70; Contains 1 70; Contains 2 97; Contains 1 66; Contains 2 66].
Example C98_case : sound_run 0 history98 /\ ~ legal_run 0 history98 /\
  exists h, run_calls empty_heap history98 = Ok (h, [Created 0; Created 1; Done; Done; Done; Created 2; Done; Done;
    Answer true; Answer false; Answer true; Answer false; Answer true]).
Proof.
  split; [cbn; unfold is_cp; intuition lia|]. split; [cbn; intuition lia|]. eexists. vm_compute. reflexivity.
Qed.
(** Arguments that are not code points are not rejected: they become members, or the call fails with an IndexError. *)
Theorem C98_not_code_points_refuted :
  (exists r es, add new_empty (-3) = Ok r /\ iter r = Ok es /\ In (-3) es) /\
  (exists r es, add (new_int 65) 0x110005 = Ok r /\ iter r = Ok es /\ In 0x110005 es) /\
  (exists A, built A /\ removeRange A (-5) 0x110003 = Err IndexError).
Proof.
  split; [|split].
  - exists [-3; -2; 0x110000], [-3]. split; [vm_compute; reflexivity|]. split; [vm_compute; reflexivity|left; reflexivity].
  - exists [65; 66; 0x110005; 0x110006; 0x110000], [65; 0x110005]. split; [vm_compute; reflexivity|]. split; [vm_compute; reflexivity|right; left; reflexivity].
  - exists (new_range 65 70). split; [apply (b_range 65 70); lia|vm_compute; reflexivity].
Qed.
Print Assumptions C98_not_code_points_refuted.
