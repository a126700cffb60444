(** * Property C107: programs that use UnicodeSet objects through names, operators and loops *)
From Coq Require Import ZArith List Bool Lia Sorted ZifyBool.
From Verif Require Import Py UnicodeSet UnicodeSetFacts UnicodeSetMerge UnicodeSetUnion UnicodeSetOps UnicodeSetViews SpecSet UnicodeSetHeap UnicodeSetReach UnicodeSetLaws
  Prop_Histories SetLanguage SetProgram SpecProgram SetProgramFacts.
Import ListNotations.
Open Scope Z_scope.

(** ** Right-hand sides *)
Lemma construct_tells lk h st v : hgood h st -> vok (length st) v -> rtells lk h st (construct h v) (said_construct st v).
Proof.
  intros G V. destruct v as [|c|b|a b step|t|p]; cbn [construct said_construct]; try reflexivity.
  - apply create_ok; auto. constructor.
  - apply create_ok; auto. constructor.
  - destruct (step =? 1); [|exact I]. apply create_ok; auto. constructor.
  - apply create_ok; auto. repeat constructor. exact V.
Qed.
Lemma oper_tells lk h st f v w : hgood h st -> vok (length st) v -> vok (length st) w -> rtells lk h st (operate h f v w) (said_oper st f v w).
Proof.
  intros G V W. destruct v as [|c|b|a b step|t|o].
  1-5: destruct w; cbn [operate said_oper]; try exact I; reflexivity.
  destruct w as [|c|b|a b step|t|p]; cbn [operate said_oper]; try (destruct f; reflexivity).
  destruct f; cbn [oper_meth]; unfold invoke; cbn [as_set bind]; apply create_ok; auto; repeat constructor; assumption.
Qed.
Lemma aug_tells lk h st f v w : hgood h st -> vok (length st) v -> vok (length st) w -> rtells lk h st (augment h f v w) (said_aug lk st f v w).
Proof.
  intros G V W. destruct v as [|c|b|a b step|t|o].
  1-5: destruct w; cbn [augment said_aug]; try exact I; reflexivity.
  destruct w as [|c|b|a b step|t|p]; cbn [augment said_aug]; try (destruct f; reflexivity).
  destruct f; cbn [aug_meth]; unfold invoke; cbn [as_set bind]; apply mutate_ok; auto; repeat constructor; assumption.
Qed.
(** what a comparison has to give *)
Lemma equal_tells h st v w : hgood h st -> vok (length st) v -> vok (length st) w ->
  match said_equal st v w with
  | Silent => True
  | Raises e => equal h v w = Err e
  | Says u => exists b, equal h v w = Ok b /\ forall b0, u = Some b0 -> b = b0
  end.
Proof.
  intros G V W. destruct v as [|c|b|a b step|t|o].
  1-5: destruct w; cbn [said_equal equal]; try exact I; reflexivity.
  destruct w as [|c|b|a b step|t|p]; cbn [said_equal equal]; try reflexivity.
  destruct (good_look h st o G V) as (a & l & E & B & S). destruct (good_look h st p G W) as (a' & m & E' & B' & S'). rewrite E. cbn [bind]. rewrite E'. cbn [bind].
  destruct (Nat.eqb o p) eqn:Q; [|destruct (forallb _ _) eqn:F].
  - apply Nat.eqb_eq in Q. subst p. rewrite E in E'. injection E' as _ <-. exists true. split; [f_equal; apply list_eqb_eq; reflexivity|intros b0 [= <-]; reflexivity].
  - eexists. split; [reflexivity|discriminate].
  - exists false. split; [|intros b0 [= <-]; reflexivity]. f_equal. destruct (UnicodeSet.eq l m) eqn:EQ; [|reflexivity]. exfalso.
    apply eq_sound in EQ. subst m. assert (forallb (fun c => Bool.eqb (sget st o c) (sget st p c)) (members (fun _ => true)) = true); [|congruence].
    apply forallb_forall. intros c I1. apply members_in in I1 as [C _]. specialize (S' c C). rewrite (S c C) in S'. injection S' as ->. apply eqb_reflx.
Qed.
Lemma rhs_tells lk h st g e : hgood h st -> env_ok (length st) g -> rtells lk h st (eval_rhs h g e) (said_rhs lk st g e).
Proof.
  intros G EN. pose proof (value_ok _ _ EN) as VO. destruct e as [a|[a|]|m s args|f s t|a s|s t|s t]; cbn [eval_rhs said_rhs].
  - apply lift_tells. intros v V. apply same_tells; [exact G|eauto|intros u [= <-]; reflexivity].
  - apply lift_tells. intros v V. apply construct_tells; eauto.
  - apply create_ok; auto. constructor.
  - apply lift_tells. intros v V. pose proof (VO _ _ V) as K. destruct v; try reflexivity. apply lift_tells. intros vs Vs. apply invoke_tells; [exact G|exact K|]. eapply values_ok; eauto.
  - apply lift_tells. intros v V. apply lift_tells. intros w W. apply oper_tells; eauto.
  - apply lift_tells. intros v V. apply lift_tells. intros w W. pose proof (VO _ _ W) as K. destruct w; try exact I; try reflexivity. apply contains_tells; auto.
  - apply lift_tells. intros v V. apply lift_tells. intros w W. pose proof (equal_tells h st v w G (VO _ _ V) (VO _ _ W)) as T.
    destruct (said_equal st v w) as [u|e|]; cbn [sbind]; [|rewrite T; reflexivity|exact I]. destruct T as (b & -> & T). cbn [bind].
    apply same_tells; [exact G|exact I|]. intros u0. destruct u as [b0|]; [|discriminate]. cbn. intros [= <-]. rewrite (T b0 eq_refl). reflexivity.
  - apply lift_tells. intros v V. apply lift_tells. intros w W. pose proof (equal_tells h st v w G (VO _ _ V) (VO _ _ W)) as T.
    destruct (said_equal st v w) as [u|e|]; cbn [sbind]; [|rewrite T; reflexivity|exact I]. destruct T as (b & -> & T). cbn [bind].
    apply same_tells; [exact G|exact I|]. intros u0. destruct u as [b0|]; [|discriminate]. cbn. intros [= <-]. rewrite (T b0 eq_refl). reflexivity.
Qed.

(** ** Statements *)
Definition tells (lk : list nat) (h : heap) (st : store) (r : res state) (w : said sstate) : Prop :=
  match w with
  | Silent => True
  | Raises e => r = Err e
  | Says (st', g') => exists h', r = Ok (h', g') /\ hgood h' st' /\ env_ok (length st') g' /\ kept lk h h' /\ (length st <= length st')%nat
  end.
Definition body_ok (lk : list nat) (body : state -> res state) (sbody : sstate -> said sstate) : Prop :=
  forall h st g, hgood h st -> env_ok (length st) g -> tells lk h st (body (h, g)) (sbody (st, g)).

Lemma tells_bind lk h st r w (f : state -> res state) (k : sstate -> said sstate) : tells lk h st r w ->
  (forall h' st' g', hgood h' st' -> env_ok (length st') g' -> (length st <= length st')%nat -> kept lk h h' -> tells lk h' st' (f (h', g')) (k (st', g'))) ->
  tells lk h st (bind r f) (sbind w k).
Proof.
  intros T H. destruct w as [[st' g']|e|]; cbn [sbind]; [|cbn [tells] in *; rewrite T; reflexivity|exact I].
  destruct T as (h' & -> & G & E & K & L). cbn [bind]. specialize (H h' st' g' G E L K). destruct (k (st', g')) as [[st2 g2]|e|]; cbn [tells] in *; auto.
  destruct H as (h2 & -> & G2 & E2 & K2 & L2). exists h2. split; [reflexivity|]. split; [exact G2|]. split; [exact E2|]. split; [eapply kept_trans; eauto|lia].
Qed.
Lemma rtells_bind lk h st r w (f : heap * val -> res state) (k : store * option val -> said sstate) : rtells lk h st r w ->
  (forall h' st' v u, hgood h' st' -> vok (length st') v -> (length st <= length st')%nat -> (forall u0, u = Some u0 -> v = u0) ->
     tells lk h' st' (f (h', v)) (k (st', u))) ->
  tells lk h st (bind r f) (sbind w k).
Proof.
  intros T H. destruct w as [[st' u]|e|]; cbn [sbind]; [|cbn [rtells tells] in *; rewrite T; reflexivity|exact I].
  destruct T as (h' & v & -> & G & K & L & V & U). cbn [bind]. specialize (H h' st' v u G V L U). destruct (k (st', u)) as [[st2 g2]|e|]; cbn [tells] in *; auto.
  destruct H as (h2 & -> & G2 & E2 & K2 & L2). exists h2. split; [reflexivity|]. split; [exact G2|]. split; [exact E2|]. split; [eapply kept_trans; eauto|lia].
Qed.
Lemma ltells_bind {A} lk h st (x : res A) (f : A -> res state) (k : A -> said sstate) :
  (forall a, x = Ok a -> tells lk h st (f a) (k a)) -> tells lk h st (bind x f) (sbind (lift x) k).
Proof. intros H. destruct x as [a|e]; cbn; [apply H; reflexivity|reflexivity]. Qed.
Lemma known_tells lk h st u v (r : res state) (k : val -> said sstate) : (forall u0, u = Some u0 -> v = u0) -> (u = Some v -> tells lk h st r (k v)) -> tells lk h st r (sbind (known u) k).
Proof. intros U H. destruct u as [u0|]; cbn; [|exact I]. rewrite (U u0 eq_refl) in H. apply H. reflexivity. Qed.
Lemma here lk h st g : hgood h st -> env_ok (length st) g -> tells lk h st (Ok (h, g)) (Says (st, g)).
Proof. intros G E. exists h. split; [reflexivity|]. split; [exact G|]. split; [exact E|]. split; [apply kept_refl|lia]. Qed.

Lemma loop_tells lk body sbody x : body_ok lk body sbody -> forall items h st g, hgood h st -> env_ok (length st) g ->
  Forall (fun v => forall n, vok n v) items -> tells lk h st (loop body x items (h, g)) (said_loop sbody x items (st, g)).
Proof.
  intros BO. induction items as [|v r IH]; intros h st g G E F; cbn [loop said_loop]; [apply here; auto|].
  inversion F; subst. apply tells_bind; [apply BO; [exact G|apply env_put; auto]|]. intros h' st' g' G' E' _ _. apply IH; auto.
Qed.
Lemma said_loop_app body x : forall l m s, said_loop body x (l ++ m) s = (let+ s' := said_loop body x l s in said_loop body x m s').
Proof. induction l as [|v l IH]; intros m s; cbn [app said_loop sbind]; [reflexivity|]. destruct (body _) as [s'|e|]; cbn [sbind]; auto. Qed.

(** the generator over a set that is left alone runs over the members *)
Lemma generate_tells lk body sbody x o : body_ok lk body sbody -> In o lk -> forall suf pre j a h st g, length pre = (2 * j)%nat ->
  hgood h st -> env_ok (length st) g -> look h o = Ok (a, pre ++ suf) ->
  tells lk h st (generate body x o (idxs j (length suf / 2)) (h, g)) (said_loop sbody x (map VInt (elements suf)) (st, g)).
Proof.
  intros BO IO. induction suf as [|u|u v l IH] using list_ind2; intros pre j a h st g J G E K; try (apply here; assumption).
  rewrite half_cons2. unfold idxs. cbn [seq map generate]. cbn [fst snd]. rewrite K. cbn [bind].
  destruct (get_pair pre u v l j J) as [G1 G2]. rewrite G1. cbn [bind]. rewrite G2. cbn [bind]. rewrite elements_cons2, map_app, said_loop_app.
  apply tells_bind; [apply loop_tells; auto|].
  - apply Forall_forall. intros w I. apply in_map_iff in I as (z & <- & _). intros n. exact Logic.I.
  - intros h' st' g' G' E' _ KP. destruct (KP o a _ IO K) as (a' & K'). rewrite app2_assoc in K'. apply (IH (pre ++ [u; v]) (S j) a'); auto. rewrite app_length. simpl. lia.
Qed.

Lemma exec_tells : forall p lk, body_ok lk (exec p) (said_exec lk p).
Proof.
  induction p as [|p IHp q IHq|x e|e|x f a|e p IHp q IHq|x a p IHp]; intros lk h st g G E; cbn [exec said_exec].
  - apply here; auto.
  - apply tells_bind; [apply IHp; auto|]. intros h' st' g' G' E' _ _. apply IHq; auto.
  - apply rtells_bind; [apply rhs_tells; auto|]. intros h' st' v u G' V L U. eapply known_tells; [exact U|]. intros _. apply here; [exact G'|]. apply env_put; [eapply env_more; eauto|exact V].
  - apply rtells_bind; [apply rhs_tells; auto|]. intros h' st' v u G' V L U. apply here; [exact G'|]. eapply env_more; eauto.
  - apply ltells_bind. intros v V. apply ltells_bind. intros w W. apply rtells_bind; [apply aug_tells; eauto using value_ok|]. intros h' st' v' u G' V' L U.
    eapply known_tells; [exact U|]. intros _. apply here; [exact G'|]. apply env_put; [eapply env_more; eauto|exact V'].
  - apply rtells_bind; [apply rhs_tells; auto|]. intros h' st' v u G' V L U. eapply known_tells; [exact U|]. intros _.
    destruct (truth v); [apply IHp|apply IHq]; auto; eapply env_more; eauto.
  - apply ltells_bind. intros v V. pose proof (value_ok _ _ E _ _ V) as K. destruct v as [|z|b|y z step|t|o]; try reflexivity.
    + apply loop_tells; auto. apply Forall_forall. intros w I. apply in_map_iff in I as (c & <- & _). intros n. exact Logic.I.
    + apply loop_tells; auto. apply Forall_forall. intros w I. apply in_map_iff in I as (c & <- & _). intros n. exact Logic.I.
    + destruct (good_look h st o G K) as (a0 & l & El & B & S). rewrite El. cbn [bind]. rewrite py_range_2_count, <- (elements_members l _ B S).
      pose proof (generate_tells (o :: lk) (exec p) (said_exec (o :: lk) p) x o (IHp (o :: lk)) (or_introl eq_refl) l [] 0%nat a0 h st g eq_refl G E El) as T.
      destruct (said_loop _ _ _ _) as [[st' g']|e|]; cbn [tells] in *; auto. destruct T as (h' & E1 & G1 & E2 & K1 & L1). exists h'. split; [exact E1|]. split; [exact G1|]. split; [exact E2|].
      split; [|exact L1]. eapply kept_less; [|exact K1]. intros z I. right. exact I.
Qed.

(** ** C107

    A program does what it says on mathematical sets: names are bound to the same values, the objects are the same sets,
    a loop over a set runs over its members in order, and where an exception is due that exception stops it. *)
Theorem C107_programs : forall p,
  match said_exec [] p ([], no_names) with
  | Says (st, g) => exists h, exec p (empty_heap, no_names) = Ok (h, g) /\
      (forall o, (o < length st)%nat -> exists a l, look h o = Ok (a, l) /\ is_set l (sget st o)) /\
      (forall x o, g x = Some (VSet o) -> (o < length st)%nat)
  | Raises e => exec p (empty_heap, no_names) = Err e
  | Silent => True
  end.
Proof.
  intros p. assert (G0 : hgood empty_heap []) by (split; [apply R_empty|constructor]).
  pose proof (exec_tells p [] empty_heap [] no_names G0 ltac:(intros x v H; discriminate)) as T.
  match type of T with tells _ _ _ _ ?v => match goal with |- match ?w with _ => _ end => change v with w in T; destruct w as [[st g]|e|] end end; [|exact T|exact I].
  destruct T as (h & E & G & EN & _ & _). exists h. split; [exact E|]. split.
  - intros o L. destruct (good_look h st o G L) as (a & l & K & _ & S). eauto.
  - intros x o H. exact (EN x _ H).
Qed.
Print Assumptions C107_programs.

(** The only exceptions that are said to stop a program are those of a wrong type, a missing attribute or name, and a step of 0. *)
Definition callers_fault (e : exn) : Prop := e = TypeError \/ e = AttributeError \/ e = NameError \/ e = ValueError.
Lemma value_fault g : forall a e, value g a = Err e -> callers_fault e.
Proof.
  assert (AI : forall v e, as_int v = Err e -> callers_fault e) by (intros [] e H; cbn in H; try discriminate; injection H as <-; left; reflexivity).
  induction a as [|z|b|t|x|a IH k|a IHa b IHb step]; cbn [value]; intros e H; try discriminate.
  - destruct (g x); [discriminate|]. injection H as <-. right; right; left; reflexivity.
  - destruct (value g a) as [v|e1]; cbn [bind] in H; [|injection H as <-; auto]. destruct (as_int v) eqn:A; cbn [bind] in H; [discriminate|]. injection H as <-. eauto.
  - destruct (value g a) as [v|e1]; cbn [bind] in H; [|injection H as <-; auto]. destruct (value g b) as [w|e1]; cbn [bind] in H; [|injection H as <-; auto].
    destruct (as_int v) eqn:A; cbn [bind] in H; [|injection H as <-; eauto]. destruct (as_int w) eqn:A2; cbn [bind] in H; [|injection H as <-; eauto].
    destruct (step =? 0); [|discriminate]. injection H as <-. right; right; right; reflexivity.
Qed.
Definition faulty {A} (w : said A) : Prop := forall e, w = Raises e -> callers_fault e.
Lemma faulty_bind {A B} (w : said A) (k : A -> said B) : faulty w -> (forall a, faulty (k a)) -> faulty (sbind w k).
Proof. intros F K e. destruct w as [a|e1|]; cbn [sbind]; [apply K|intros [= <-]; apply F; reflexivity|discriminate]. Qed.
Lemma faulty_value g a : faulty (lift (value g a)).
Proof. intros e. destruct (value g a) eqn:V; cbn; [discriminate|]. intros [= <-]. eapply value_fault; eauto. Qed.
Lemma faulty_int v : faulty (lift (as_int v)).
Proof. intros e. destruct v; cbn; try discriminate; intros [= <-]; left; reflexivity. Qed.
Lemma faulty_set v : faulty (lift (as_set v)).
Proof. intros e. destruct v; cbn; try discriminate; intros [= <-]; right; left; reflexivity. Qed.
Lemma faulty_values g : forall l, faulty (lift (mapM (value g) l)).
Proof.
  induction l as [|a l IH]; intros e; cbn [mapM]; [discriminate|]. destruct (value g a) eqn:V; cbn [bind lift]; [|intros [= <-]; eapply value_fault; eauto].
  specialize (IH e). destruct (mapM (value g) l); cbn [bind lift] in *; [discriminate|exact IH].
Qed.
Lemma faulty_says {A} (a : A) : faulty (Says a). Proof. intros e. discriminate. Qed.
Lemma faulty_silent {A} : faulty (@Silent A). Proof. intros e. discriminate. Qed.
Lemma faulty_type {A} : faulty (@Raises A TypeError). Proof. intros e [= <-]. left. reflexivity. Qed.
Lemma faulty_attr {A} : faulty (@Raises A AttributeError). Proof. intros e [= <-]. right. left. reflexivity. Qed.
Lemma faulty_mutate lk st o k : faulty (mutate lk st o k).
Proof. unfold mutate. destruct (existsb _ _); [apply faulty_silent|]. destruct (args_ok k); [apply faulty_says|apply faulty_silent]. Qed.
Lemma faulty_create st k : faulty (create st k).
Proof. unfold create. destruct (args_ok k); [apply faulty_says|apply faulty_silent]. Qed.
Create HintDb fault.
#[local] Hint Resolve faulty_value faulty_int faulty_set faulty_values faulty_says faulty_silent faulty_type faulty_attr faulty_mutate faulty_create : fault.
Lemma faulty_contains st o v : faulty (said_contains st o v).
Proof.
  destruct v; cbn [said_contains]; auto with fault.
  - destruct (cpb z); auto with fault. destruct (z <? 0); auto with fault.
  - destruct (negb (cpb a) || negb (step =? 1)); auto with fault. destruct (b <=? a + 1); auto with fault. destruct (forallb _ _); auto with fault.
Qed.
#[local] Hint Resolve faulty_contains : fault.
Lemma faulty_invoke lk st m o args : faulty (said_invoke lk st m o args).
Proof.
  destruct args as [|x [|y [|z r]]]; destruct m; unfold said_invoke; auto with fault;
    repeat (apply faulty_bind; [auto with fault|intros ?]); auto with fault.
  - destruct x; auto with fault. destruct (step =? 1); auto with fault.
  - destruct a1. auto with fault.
Qed.
Lemma faulty_known u : faulty (known u). Proof. destruct u; cbn; auto with fault. Qed.
Lemma faulty_construct st v : faulty (said_construct st v).
Proof. destruct v; cbn; auto with fault. destruct (step =? 1); auto with fault. Qed.
Lemma faulty_oper st f v w : faulty (said_oper st f v w). Proof. destruct v, w; cbn; auto with fault. Qed.
Lemma faulty_aug lk st f v w : faulty (said_aug lk st f v w). Proof. destruct v, w; cbn; auto with fault. Qed.
Lemma faulty_equal st v w : faulty (said_equal st v w).
Proof. destruct v, w; cbn [said_equal]; auto with fault. destruct (Nat.eqb o o0); auto with fault. destruct (forallb _ _); auto with fault. Qed.
#[local] Hint Resolve faulty_invoke faulty_known faulty_construct faulty_oper faulty_aug faulty_equal : fault.
Lemma faulty_rhs lk st g e : faulty (said_rhs lk st g e).
Proof.
  destruct e as [a|[a|]|m s args|f s t|a s|s t|s t]; cbn [said_rhs]; auto with fault; repeat (apply faulty_bind; [auto with fault|intros ?]); auto with fault.
  - destruct a; auto with fault. apply faulty_bind; auto with fault.
  - destruct a1; auto with fault.
Qed.
#[local] Hint Resolve faulty_rhs : fault.
Lemma faulty_loop body x : (forall s, faulty (body s)) -> forall l s, faulty (said_loop body x l s).
Proof. intros F. induction l as [|v l IH]; intros s; cbn [said_loop]; auto with fault. apply faulty_bind; auto. Qed.
Theorem C107_errors : forall p lk s e, said_exec lk p s = Raises e -> callers_fault e.
Proof.
  assert (forall p lk s, faulty (said_exec lk p s)) as F; [|intros p lk s e; apply F].
  induction p as [|p IHp q IHq|x e|e|x f a|e p IHp q IHq|x a p IHp]; intros lk [st g]; cbn [said_exec]; auto with fault.
  - apply faulty_bind; auto.
  - apply faulty_bind; auto with fault. intros [st' u]. apply faulty_bind; auto with fault.
  - apply faulty_bind; auto with fault. intros [st' u]. auto with fault.
  - do 2 (apply faulty_bind; [auto with fault|intros ?]).
    apply faulty_bind; auto with fault. intros [st' u]. apply faulty_bind; auto with fault.
  - apply faulty_bind; auto with fault. intros [st' u]. apply faulty_bind; auto with fault. intros v. destruct (truth v); auto.
  - apply faulty_bind; auto with fault. intros v. destruct v; auto with fault; apply faulty_loop; auto.
Qed.
Print Assumptions C107_errors.

(** A condition is false when it is None, False, 0, an empty string or a range that has no members, and true otherwise;
    a range has the members that counting from its start by its step gives before its end, in this order. *)
Theorem C107_ranges : forall a b step, step <> 0 ->
  (forall z, In z (range_list a b step) <-> exists k, 0 <= k /\ z = a + k * step /\ (if 0 <? step then z < b else b < z)) /\
  StronglySorted (fun y z => if 0 <? step then y < z else z < y) (range_list a b step).
Proof.
  intros a b step N. unfold range_list. set (n := Z.to_nat _). split.
  - intros z. rewrite in_map_iff. split.
    + intros (k & <- & I). apply in_seq in I. exists (Z.of_nat k). split; [lia|]. split; [reflexivity|]. unfold n in I.
      destruct (0 <? step) eqn:S.
      * assert (Z.of_nat k < (b - a + step - 1) / step) as H by lia.
        pose proof (Z.mul_div_le (b - a + step - 1) step ltac:(lia)). nia.
      * assert (Z.of_nat k < (a - b - step - 1) / - step) as H by lia.
        pose proof (Z.mul_div_le (a - b - step - 1) (- step) ltac:(lia)). nia.
    + intros (k & K & -> & B). exists (Z.to_nat k). split; [lia|]. apply in_seq. unfold n. destruct (0 <? step) eqn:S.
      * assert (k + 1 <= (b - a + step - 1) / step) by (apply Z.div_le_lower_bound; nia). lia.
      * assert (k + 1 <= (a - b - step - 1) / - step) by (apply Z.div_le_lower_bound; nia). lia.
  - generalize 0%nat as i. induction n as [|n IH]; intros i; [constructor|]. cbn [seq map]. constructor; [apply IH|].
    apply Forall_forall. intros z I. apply in_map_iff in I as (k & <- & I). apply in_seq in I. destruct (0 <? step) eqn:S; nia.
Qed.
Print Assumptions C107_ranges.
Theorem C107_conditions : forall h g a v p q, value g a = Ok v ->
  (v = VNone \/ v = VBool false \/ v = VInt 0 \/ v = VStr [] \/ (exists y z step, v = VRange y z step /\ if 0 <? step then z <= y else y <= z) ->
    exec (SIf (EAtom a) p q) (h, g) = exec q (h, g)) /\
  (v = VBool true \/ (exists k, v = VInt k /\ k <> 0) \/ (exists c t, v = VStr (c :: t)) \/ (exists o, v = VSet o) \/
   (exists y z step, v = VRange y z step /\ step <> 0 /\ if 0 <? step then y < z else z < y) ->
    exec (SIf (EAtom a) p q) (h, g) = exec p (h, g)).
Proof.
  intros h g a v p q E. cbn [exec eval_rhs]. rewrite E. cbn [bind]. split.
  - intros [->|[->|[->|[->|(y & z & step & -> & B)]]]]; try reflexivity. cbn [truth].
    replace (range_list y z step) with (@nil Z); [reflexivity|]. unfold range_list.
    replace (Z.to_nat _) with 0%nat; [reflexivity|]. destruct (0 <? step) eqn:S.
    + assert ((z - y + step - 1) / step < 1) by (apply Z.div_lt_upper_bound; lia). lia.
    + destruct (Z.eq_dec step 0) as [->|N]; [cbn; rewrite Zdiv.Zdiv_0_r; reflexivity|].
      assert ((y - z - step - 1) / - step < 1) by (apply Z.div_lt_upper_bound; lia). lia.
  - intros [->|[(k & -> & K)|[(c & t & ->)|[(o & ->)|(y & z & step & -> & N & B)]]]]; try reflexivity; cbn [truth].
    + replace (k =? 0) with false by lia. reflexivity.
    + destruct (range_list y z step) as [|i l] eqn:L; [exfalso|reflexivity].
      apply (in_nil (a := y)). rewrite <- L. apply (C107_ranges y z step N). exists 0. split; [lia|]. split; [lia|]. exact B.
Qed.
Print Assumptions C107_conditions.

(** The case.  Names 0..10; [b] is another name of the set of [a], [c] is a copy.
<<
a = UnicodeSet(range(65, 91)); b = a; c = UnicodeSet(a); d = UnicodeSet(range(70, 80)); e = UnicodeSet()
b -= d
for v in range(60, 80):
    if v in c: e.add(v + 32)
t = a == b; u = 75 in a; w = 75 in c; x = range(97, 99) in e; y = e | a; z = 97 in y
>> *)
Fixpoint program (l : list stmt) : stmt := match l with [] => SSkip | p :: r => SSeq p (program r) end.
Definition program107 : stmt := program
  [SAssign 0 (ENew (Some (ARange (AInt 65) (AInt 91) 1))); SAssign 1 (EAtom (AName 0)); SAssign 2 (ENew (Some (AName 0)));
   SAssign 3 (ENew (Some (ARange (AInt 70) (AInt 80) 1))); SAssign 4 (ENew None);
   SAug 1 OSub (AName 3);
   SFor 5 (ARange (AInt 60) (AInt 80) 1) (SIf (EIn (AName 5) (AName 2)) (SExpr (ECall MAdd (AName 4) [APlus (AName 5) 32])) SSkip);
   SAssign 6 (EEq (AName 0) (AName 1)); SAssign 7 (EIn (AInt 75) (AName 0)); SAssign 8 (EIn (AInt 75) (AName 2));
   SAssign 9 (EOper OOr (AName 4) (AName 0)); SAssign 10 (EIn (AInt 97) (AName 9))].
Definition shown (g : env) : list (option val) := map g [0; 1; 2; 3; 4; 5; 6; 7; 8; 9; 10]%nat.
Definition values107 : list (option val) := map Some
  [VSet 0; VSet 0; VSet 1; VSet 2; VSet 3; VInt 79; VBool true; VBool false; VBool true; VSet 4; VBool true].
Example C107_case :
  match said_exec [] program107 ([], no_names) with Says (_, g) => shown g = values107 | _ => False end /\
  match exec program107 (empty_heap, no_names) with
  | Ok (h, g) => shown g = values107 /\ look h 0 = Ok (4%nat, [65; 70; 80; 91; 0x110000]) /\ look h 3 = Ok (3%nat, [97; 112; 0x110000])
  | _ => False end.
Proof. vm_compute. auto. Qed.
(** A loop over a set:
<<
a = UnicodeSet(range(65, 68)); e = UnicodeSet(66)
for v in a: e ^= a; e.add(v + 32)
n = a.size()
>> *)
Lemma span_members a b l : (forall c, In c l <-> is_cp c /\ a <= c <= b) -> StronglySorted Z.lt l -> members (s_span a b) = l.
Proof.
  intros H S. apply strict_same; [apply members_strict|exact S|]. intros c. rewrite members_in, H. unfold s_span. rewrite andb_true_iff, !Z.leb_le. reflexivity.
Qed.
Definition ends_in (w : said sstate) (P : store -> env -> Prop) : Prop := match w with Says (st, g) => P st g | _ => False end.
Definition loop107 : stmt := program
  [SAssign 0 (ENew (Some (ARange (AInt 65) (AInt 68) 1))); SAssign 4 (ENew (Some (AInt 66)));
   SFor 5 (AName 0) (SSeq (SAug 4 OXor (AName 0)) (SExpr (ECall MAdd (AName 4) [APlus (AName 5) 32])))].
Example C107_case_loop :
  ends_in (said_exec [] loop107 ([], no_names)) (fun st g => map g [0; 4; 5]%nat = map Some [VSet 0; VSet 1; VInt 67] /\
    map (sget st 1) [64; 65; 66; 67; 68; 96; 97; 98; 99] = [false; true; false; true; false; false; true; true; true]) /\
  match exec loop107 (empty_heap, no_names) with Ok (h, g) => look h 1 = Ok (4%nat, [65; 66; 67; 68; 97; 100; 0x110000]) | _ => False end.
Proof.
  split; [|vm_compute; reflexivity].
  assert (M : members (s_span 65 67) = [65; 66; 67]) by (apply span_members; [intros c; unfold is_cp; cbn [In]; lia|repeat constructor; lia]).
  cbn [loop107 program said_exec]. cbn -[members said_exec]. cbn [said_exec]. cbn -[members said_exec said_loop s_span].
  change (68 - 1) with 67. rewrite M. vm_compute. auto.
Qed.
(** Errors: the text of a name is not a code point, a number has no [list], [True] is no argument of [contains]. *)
Example C107_case_errors :
  said_exec [] (program [SAssign 0 (ENew None); SExpr (ECall MAdd (AName 0) [AStr [65]])]) ([], no_names) = Raises TypeError /\
  said_exec [] (program [SAssign 0 (ENew None); SAug 0 OOr (AInt 65)]) ([], no_names) = Raises AttributeError /\
  said_exec [] (program [SAssign 0 (ENew None); SExpr (EIn (ABool true) (AName 0))]) ([], no_names) = Raises TypeError /\
  exec (program [SAssign 0 (ENew None); SExpr (EIn (ABool true) (AName 0))]) (empty_heap, no_names) = Err TypeError /\
  said_exec [] (SExpr (EIn (AInt 65) (AInt 65))) ([], no_names) = Raises TypeError.
Proof. vm_compute. auto. Qed.

(** ** What a user of Python's sets would not expect *)

(** A loop that changes the set it runs over: it may end in an IndexError, or go over a member twice and miss another,
    though no member was removed. *)
Definition looping (l : list Z) (body : stmt) : stmt :=
  program ([SAssign 0 (ENew None); SAssign 2 (ENew None)] ++ map (fun c => SExpr (ECall MAdd (AName 0) [AInt c])) l ++
           [SAssign 3 (EAtom (AInt 0)); SFor 1 (AName 0) (SSeq (SAssign 3 (EAtom (APlus (AName 3) 1))) (SSeq (SExpr (ECall MAdd (AName 2) [AName 1])) body))]).
Theorem C107_changed_in_loop_refuted :
  exec (looping [1; 3; 5] (SExpr (ECall MAdd (AName 0) [APlus (AName 1) 1]))) (empty_heap, no_names) = Err IndexError /\
  exists h g, exec (looping [10; 20] (SExpr (ECall MAdd (AName 0) [AInt 5]))) (empty_heap, no_names) = Ok (h, g) /\
    look h 0 = Ok (0%nat, [5; 6; 10; 11; 20; 21; 0x110000]) /\ look h 1 = Ok (1%nat, [10; 11; 0x110000]) /\ g 3%nat = Some (VInt 2).
Proof. split; [vm_compute; reflexivity|]. eexists _, _. split; [vm_compute; reflexivity|]. vm_compute. auto. Qed.
Print Assumptions C107_changed_in_loop_refuted.

(** [s == None] and [s != 5] raise an AttributeError instead of answering, on either side. *)
Theorem C107_equal_to_other_types_refuted : forall h o v, as_set v = Err AttributeError ->
  equal h (VSet o) v = Err AttributeError /\ equal h v (VSet o) = Err AttributeError.
Proof. intros h o v H. destruct v; try discriminate; split; reflexivity. Qed.
Print Assumptions C107_equal_to_other_types_refuted.

(** The empty set counts as true: [if UnicodeSet():] runs its body. *)
Theorem C107_empty_is_true_refuted : exists h g,
  exec (program [SAssign 0 (ENew None); SAssign 1 (ECall MSize (AName 0) []); SIf (EAtom (AName 0)) (SAssign 2 (EAtom (AInt 1))) (SAssign 2 (EAtom (AInt 0)))]) (empty_heap, no_names) = Ok (h, g) /\
  g 1%nat = Some (VInt 0) /\ g 2%nat = Some (VInt 1).
Proof. eexists _, _. split; [vm_compute; reflexivity|]. vm_compute. auto. Qed.
Print Assumptions C107_empty_is_true_refuted.

(** The step of a range is ignored: [UnicodeSet(range(0, 10, 2))] has 1 in it, and a range that counts down makes a set that is no set:
    its size is negative. *)
Theorem C107_step_refuted :
  (exists h g, exec (program [SAssign 0 (ENew (Some (ARange (AInt 0) (AInt 10) 2))); SAssign 1 (EIn (AInt 1) (AName 0))]) (empty_heap, no_names) = Ok (h, g) /\
    g 1%nat = Some (VBool true) /\ ~ In 1 (range_list 0 10 2)) /\
  (exists h g, exec (program [SAssign 0 (ENew (Some (ARange (AInt 9) (AInt 0) (-1)))); SAssign 1 (ECall MSize (AName 0) [])]) (empty_heap, no_names) = Ok (h, g) /\
    g 1%nat = Some (VInt (-9)) /\ length (range_list 9 0 (-1)) = 9%nat).
Proof.
  split; eexists _, _; (split; [vm_compute; reflexivity|]); (split; [vm_compute; reflexivity|]); [|vm_compute; reflexivity].
  vm_compute. intuition discriminate.
Qed.
Print Assumptions C107_step_refuted.
