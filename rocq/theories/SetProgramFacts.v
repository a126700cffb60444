(** * The programs of SetProgram.v keep to SpecProgram.v *)
From Coq Require Import ZArith List Bool Lia Sorted ZifyBool.
From Verif Require Import Py UnicodeSet UnicodeSetFacts UnicodeSetMerge UnicodeSetOps UnicodeSetViews SpecSet UnicodeSetHeap UnicodeSetReach UnicodeSetLaws
  Prop_Histories Prop_SetExact SetLanguage SetProgram SpecProgram.
Import ListNotations.
Open Scope Z_scope.

(** ** Members in order *)
Lemma strict_same : forall l m : list Z, StronglySorted Z.lt l -> StronglySorted Z.lt m -> (forall c, In c l <-> In c m) -> l = m.
Proof.
  induction l as [|x l IH]; intros [|y m] A B H.
  - reflexivity.
  - exfalso. apply (proj2 (H y)). left. reflexivity.
  - exfalso. apply (proj1 (H x)). left. reflexivity.
  - inversion A as [|? ? A1 A2]; inversion B as [|? ? B1 B2]; subst. rewrite Forall_forall in A2, B2.
    assert (x = y).
    { destruct (proj1 (H x) (or_introl eq_refl)) as [E|E]; [auto|]. destruct (proj2 (H y) (or_introl eq_refl)) as [F|F]; [auto|].
      specialize (A2 _ F). specialize (B2 _ E). lia. }
    subst y. f_equal. apply IH; auto. intros c. split; intros I.
    + destruct (proj1 (H c) (or_intror I)) as [E|E]; [|exact E]. specialize (A2 _ I). lia.
    + destruct (proj2 (H c) (or_intror I)) as [E|E]; [|exact E]. specialize (B2 _ I). lia.
Qed.
Lemma filter_strict (f : Z -> bool) l : StronglySorted Z.lt l -> StronglySorted Z.lt (filter f l).
Proof.
  induction 1 as [|x l A IH B]; cbn; [constructor|]. destruct (f x); [|exact IH]. constructor; [exact IH|].
  rewrite Forall_forall in *. intros y I. apply filter_In in I as [I _]. auto.
Qed.
Lemma count_up_in : forall n c x, In x (count_up n c) <-> c <= x < c + Z.of_nat n.
Proof. induction n as [|n IH]; intros c x; cbn [count_up In]; [lia|]. rewrite IH. lia. Qed.
Lemma count_up_strict : forall n c, StronglySorted Z.lt (count_up n c).
Proof. induction n as [|n IH]; intros c; cbn [count_up]; constructor; [apply IH|]. rewrite Forall_forall. intros y I. apply count_up_in in I. lia. Qed.
Lemma members_strict s : StronglySorted Z.lt (members s).
Proof. apply filter_strict, count_up_strict. Qed.
Lemma members_in s c : In c (members s) <-> is_cp c /\ s c = true.
Proof. unfold members. rewrite filter_In, count_up_in, Z2Nat.id by lia. unfold is_cp. intuition lia. Qed.
Lemma elements_members l s : built l -> is_set l s -> elements l = members s.
Proof.
  intros B I. pose proof (built_WF _ B) as W. apply strict_same; [apply elements_strict, W|apply members_strict|].
  intros c. rewrite members_in, (elements_contains l c W). unfold is_cp. rewrite HIGH_eq. split; intros [C D].
  - split; [lia|]. rewrite (I c) in D by (unfold is_cp; lia). congruence.
  - split; [lia|]. rewrite (I c) by (unfold is_cp; lia). congruence.
Qed.
Lemma position_spec : forall l c n r, StronglySorted Z.lt l ->
  (forall k, r = Some k <-> 0 <= k /\ nth_error l (Z.to_nat k) = Some c) -> position c l n = option_map (fun k => n + k) r.
Proof.
  induction l as [|x l IH]; intros c n r A H; cbn [position].
  - destruct r as [k|]; [|reflexivity]. destruct (proj1 (H k) eq_refl) as [_ E]. destruct (Z.to_nat k); discriminate.
  - inversion A as [|? ? A1 A2]; subst. rewrite Forall_forall in A2. destruct (x =? c) eqn:E.
    + assert (x = c) by lia. subst x. rewrite (proj2 (H 0)) by (split; [lia|reflexivity]). cbn. f_equal. lia.
    + rewrite (IH c (n + 1) (option_map (fun k => k - 1) r) A1).
      * destruct r; cbn; [f_equal; lia|reflexivity].
      * intros k. split.
        -- destruct r as [j|]; [|discriminate]. cbn. intros [= <-]. destruct (proj1 (H j) eq_refl) as [J N].
           destruct (Z.to_nat j) as [|i] eqn:Ej; cbn [nth_error] in N; [injection N as N; lia|]. split; [lia|]. replace (Z.to_nat (j - 1)) with i by lia. exact N.
        -- intros [K N]. rewrite (proj2 (H (k + 1))); [cbn; f_equal; lia|]. split; [lia|]. replace (Z.to_nat (k + 1)) with (S (Z.to_nat k)) by lia. exact N.
Qed.

(** ** Relations *)
Definition vok (n : nat) (v : val) : Prop := match v with VSet o => (o < n)%nat | _ => True end.
Definition env_ok (n : nat) (g : env) : Prop := forall x v, g x = Some v -> vok n v.
Definition kept (lk : list nat) (h h' : heap) : Prop :=
  forall o a l, In o lk -> look h o = Ok (a, l) -> exists a', look h' o = Ok (a', l).
Definition hgood (h : heap) (st : store) : Prop := R h st /\ Forall built (lmem h).

Lemma vok_more n m v : (n <= m)%nat -> vok n v -> vok m v.
Proof. destruct v; cbn; auto. lia. Qed.
Lemma env_more n m g : (n <= m)%nat -> env_ok n g -> env_ok m g.
Proof. intros L E x v H. eapply vok_more; eauto. Qed.
Lemma env_put n g x v : env_ok n g -> vok n v -> env_ok n (put g x v).
Proof. intros E V y w. unfold put. destruct (Nat.eqb y x); [intros [= <-]; exact V|apply E]. Qed.
Lemma kept_refl lk h : kept lk h h.
Proof. intros o a l _ H. eauto. Qed.
Lemma kept_trans lk h1 h2 h3 : kept lk h1 h2 -> kept lk h2 h3 -> kept lk h1 h3.
Proof. intros A B o a l I H. destruct (A o a l I H) as (a' & H'). exact (B o a' l I H'). Qed.
Lemma kept_less lk lk' h h' : incl lk lk' -> kept lk' h h' -> kept lk h h'.
Proof. intros A B o a l I H. exact (B o a l (A _ I) H). Qed.

Lemma value_ok n g : env_ok n g -> forall a v, value g a = Ok v -> vok n v.
Proof.
  intros E. induction a as [|z|b|t|x|a IH k|a IHa b IHb step]; cbn [value]; intros v H; try (injection H as <-; exact I).
  - destruct (g x) eqn:G; [|discriminate]. injection H as <-. exact (E x _ G).
  - apply bind_inv in H as (u & _ & H). apply bind_inv in H as (z & _ & H). injection H as <-. exact I.
  - apply bind_inv in H as (u & _ & H). apply bind_inv in H as (w & _ & H). apply bind_inv in H as (y & _ & H). apply bind_inv in H as (z & _ & H).
    destruct (step =? 0); [discriminate|]. injection H as <-. exact I.
Qed.
Lemma values_ok n g : env_ok n g -> forall l vs, mapM (value g) l = Ok vs -> Forall (vok n) vs.
Proof.
  intros E. induction l as [|a l IH]; cbn [mapM]; intros vs H; [injection H as <-; constructor|].
  apply bind_inv in H as (v & V & H). apply bind_inv in H as (ws & W & H). injection H as <-. constructor; [exact (value_ok n g E a v V)|auto].
Qed.

(** ** One call *)
Definition objects (k : call) : list nat :=
  match k with
  | New | NewInt _ | NewRange _ _ => []
  | NewCopy o | Add o _ | AddRange o _ _ | RemoveRange o _ _ | RetainRange o _ _ | ComplementRange o _ _ | Complement o | Clear o | Contains o _ => [o]
  | AddAll o p | RemoveAll o p | RetainAll o p | ComplementAll o p | Union o p | Intersection o p | Difference o p | SymmetricDifference o p => [o; p]
  end.
Lemma cpb_ok c : cpb c = true <-> is_cp c.
Proof. unfold cpb, is_cp. lia. Qed.
Lemma args_sound n k : args_ok k = true -> Forall (fun o => (o < n)%nat) (objects k) -> sound_call n k.
Proof.
  intros A F. destruct k; cbn [args_ok objects sound_call legal_call] in *;
    repeat match goal with H : Forall _ (_ :: _) |- _ => inversion H; clear H; subst end; rewrite ?andb_true_iff, ?cpb_ok in *; intuition lia.
Qed.

(** what a call of a method or operator has to give *)
Definition rtells (lk : list nat) (h : heap) (st : store) (r : res (heap * val)) (w : said (store * option val)) : Prop :=
  match w with
  | Silent => True
  | Raises e => r = Err e
  | Says (st', u) => exists h' v, r = Ok (h', v) /\ hgood h' st' /\ kept lk h h' /\ (length st <= length st')%nat /\ vok (length st') v /\
                     (forall u0, u = Some u0 -> v = u0)
  end.

Lemma lift_tells {A} lk h st (x : res A) (f : A -> res (heap * val)) (g : A -> said (store * option val)) :
  (forall a, x = Ok a -> rtells lk h st (f a) (g a)) -> rtells lk h st (bind x f) (sbind (lift x) g).
Proof. intros H. destruct x as [a|e]; cbn; [apply H; reflexivity|reflexivity]. Qed.

Lemma mutate_ok lk h st o k : hgood h st -> Forall (fun o => (o < length st)%nat) (objects k) -> receiver k = Some o -> creates k = false ->
  rtells lk h st (self_call h o k) (mutate lk st o k).
Proof.
  intros [HR HB] F Rc Cr. unfold mutate. destruct (existsb (Nat.eqb o) lk) eqn:L; [exact I|]. destruct (args_ok k) eqn:A; [|exact I]. cbn [rtells].
  destruct (actual_sim h st k HR (args_sound _ _ A F) HB) as (h' & E & R1 & B1 & N). rewrite Cr in N.
  exists h', (VSet o). unfold self_call. rewrite E. cbn [bind]. split; [reflexivity|]. split; [split; assumption|]. split; [|split; [lia|split; [|intros u0 [= <-]; reflexivity]]].
  - intros p a l I K. eapply frame_call; [apply (R_nodup _ _ HR)|exact E| |exact K]. rewrite Rc. intros [= ->].
    assert (existsb (Nat.eqb p) lk = true) by (apply existsb_exists; exists p; split; [exact I|apply Nat.eqb_refl]). congruence.
  - rewrite N. cbn. rewrite Forall_forall in F. apply F. destruct k; cbn in Rc |- *; try discriminate; injection Rc as ->; left; reflexivity.
Qed.
Lemma create_ok lk h st k : hgood h st -> Forall (fun o => (o < length st)%nat) (objects k) -> receiver k = None -> creates k = true ->
  rtells lk h st (new_call h k) (create st k).
Proof.
  intros [HR HB] F Rc Cr. unfold create. destruct (args_ok k) eqn:A; [|exact I]. cbn [rtells].
  destruct (actual_sim h st k HR (args_sound _ _ A F) HB) as (h' & E & R1 & B1 & N). rewrite Cr in N.
  assert (S : snd (actual_call st k) = Created (length st)) by (unfold actual_call; destruct k; try discriminate; reflexivity).
  exists h', (VSet (length st)). unfold new_call. rewrite E, S. cbn [bind]. split; [reflexivity|]. split; [split; assumption|]. split; [|split; [lia|split; [cbn; lia|intros u0 [= <-]; reflexivity]]].
  intros p a l I K. eapply frame_call; [apply (R_nodup _ _ HR)|exact E| |exact K]. rewrite Rc. discriminate.
Qed.

Lemma good_look h st o : hgood h st -> (o < length st)%nat -> exists a l, look h o = Ok (a, l) /\ built l /\ is_set l (sget st o).
Proof.
  intros [HR HB] L. destruct (R_look _ _ _ HR L) as (a & l & _ & E & _ & D). exists a, l. split; [exact E|]. split; [eapply look_built; eauto|apply denotes_is_set, D].
Qed.
Lemma same_tells lk h st v u : hgood h st -> vok (length st) v -> (forall u0, u = Some u0 -> v = u0) -> rtells lk h st (Ok (h, v)) (Says (st, u)).
Proof. intros G V U. exists h, v. split; [reflexivity|]. split; [exact G|]. split; [apply kept_refl|]. split; [lia|]. auto. Qed.

Lemma contains_tells lk h st o v : hgood h st -> (o < length st)%nat -> rtells lk h st (contains_call h o v) (said_contains st o v).
Proof.
  intros G L. destruct (good_look h st o G L) as (a0 & l & E & B & S). unfold contains_call, said_contains. destruct v as [|c|b|a b step|t|p]; try reflexivity.
  - rewrite E. cbn [bind]. destruct (cpb c) eqn:C.
    + rewrite (S c) by (apply cpb_ok; exact C). cbn [bind]. apply same_tells; [exact G|exact I|intros u [= <-]; reflexivity].
    + destruct (c <? 0) eqn:N; [|exact I]. rewrite (contains_negative l c B) by lia. cbn [bind]. apply same_tells; [exact G|exact I|intros u [= <-]; reflexivity].
  - destruct (negb (cpb a) || negb (step =? 1)) eqn:C; [exact I|]. rewrite E. cbn [bind]. assert (A : is_cp a) by (apply cpb_ok; destruct (cpb a); [reflexivity|discriminate]).
    destruct (C15_exact l a b B A) as (r & rs & E1 & Er & T). rewrite E1. cbn [bind].
    destruct (ranges_ok l B) as (rs1 & R1 & _ & _ & M & _). rewrite Er in R1. injection R1 as <-.
    destruct (b <=? a + 1) eqn:B1; [|destruct (forallb _ _) eqn:FA].
    + apply same_tells; [exact G|exact I|]. intros u [= <-]. f_equal. apply eq_true_iff_eq. rewrite T. pose proof (S a A) as SA. split.
      * intros (p & q & I1 & H1 & H2). assert (contains l a = Ok true) by (apply M; [exact A|exists p, q; split; [exact I1|lia]]). congruence.
      * intros H. destruct (proj1 (M a A)) as (p & q & I1 & H1); [rewrite SA, H; reflexivity|]. exists p, q. split; [exact I1|]. lia.
    + apply same_tells; [exact G|exact I|discriminate].
    + apply same_tells; [exact G|exact I|]. intros u [= <-]. f_equal. destruct r; [|reflexivity]. exfalso.
      assert (forallb (fun c => cpb c && sget st o c) (range_list a b 1) = true); [|congruence].
      apply forallb_forall. intros c I1. unfold range_list in I1. apply in_map_iff in I1 as (j & <- & I1). apply in_seq in I1. change (0 <? 1) with true in I1. cbv iota in I1.
      rewrite Z.div_1_r in I1. destruct (proj1 T eq_refl) as (p & q & I2 & H1 & H2).
      assert (Q : q <= 0x110000).
      { rewrite getRanges_pairs in Er. injection Er as <-. apply pairs_split in I2 as (p1 & s1 & Q & _). pose proof (built_WF _ B) as (_ & Bd & _). rewrite Q in Bd.
        apply Forall_app in Bd as [_ Bd]. inversion Bd as [|? ? _ Bd1]; subst. inversion Bd1; subst. rewrite HIGH_eq in *. lia. }
      unfold is_cp in A. assert (C2 : is_cp (a + Z.of_nat j * 1)) by (unfold is_cp; lia). rewrite (proj2 (cpb_ok _) C2). cbn [andb].
      assert (K : contains l (a + Z.of_nat j * 1) = Ok true) by (apply M; [exact C2|exists p, q; split; [exact I2|lia]]). rewrite (S _ C2) in K. congruence.
Qed.

Lemma addRange_tells lk h st o a b : hgood h st -> (o < length st)%nat ->
  rtells lk h st
    (let* (_, l) := look h o in let* (_, v) := addRange l a b in let* (h', _) := do_call h (AddRange o a b) in
     Ok (h', match v with RSelf => VSet o | RNone => VNone end))
    (let+ (st', _) := mutate lk st o (AddRange o a b) in
     Says (st', if (b <=? a) || existsb (fun c => a <=? c) (members (sget st o)) then Some (VSet o) else None)).
Proof.
  intros G L. pose proof (mutate_ok lk h st o (AddRange o a b) G ltac:(repeat constructor; exact L) eq_refl eq_refl) as T.
  assert (AK : mutate lk st o (AddRange o a b) = Silent \/ (is_cp a /\ is_cp b)).
  { unfold mutate. destruct (existsb (Nat.eqb o) lk); [left; reflexivity|]. cbn [args_ok]. destruct (cpb a && cpb b) eqn:C; [|left; reflexivity].
    right. rewrite andb_true_iff, !cpb_ok in C. exact C. }
  destruct (mutate lk st o (AddRange o a b)) as [[st' u]|e|] eqn:Em; cbn [sbind].
  - cbn [rtells] in T. destruct T as (h' & v & E & G' & K & N & V & _). destruct AK as [|[Ha Hb]]; [discriminate|].
    destruct (good_look h st o G L) as (a0 & l & El & B & S).
    unfold self_call in E. destruct (do_call h (AddRange o a b)) as [[h1 o1]|e] eqn:Ed; [|discriminate]. cbn [bind] in E. injection E as <- <-.
    destruct (addRange l a b) as [[l1 rv]|e] eqn:Ea.
    + exists h1. eexists. rewrite El. cbn [bind]. rewrite Ea. cbn [bind]. split; [reflexivity|]. split; [exact G'|]. split; [exact K|]. split; [exact N|].
      split; [destruct rv; [exact V|exact I]|]. intros u0 H. destruct ((b <=? a) || _) eqn:C; [|discriminate]. injection H as <-.
      apply orb_true_iff in C as [C|C].
      * destruct rv; [reflexivity|]. destruct (proj1 (C18_exact l a b l1 RNone B Ha Hb Ea) eq_refl) as (Q & _). lia.
      * apply existsb_exists in C as (c & Ic & C). apply members_in in Ic as [Ic Sc].
        rewrite (addRange_self l a b c l1 rv B Ha Hb Ea Ic); [reflexivity|lia|]. rewrite (S c Ic), Sc. reflexivity.
    + exfalso. cbn [do_call] in Ed. unfold addRange_call in Ed. rewrite El in Ed. cbn [bind] in Ed. rewrite Ea in Ed. discriminate.
  - unfold mutate in Em. destruct (existsb _ _); [discriminate|]. destruct (args_ok _); discriminate.
  - exact I.
Qed.

Lemma views_tells lk h st o : hgood h st -> (o < length st)%nat ->
  rtells lk h st (let* (_, l) := look h o in let* n := size l in Ok (h, VInt n)) (Says (st, Some (VInt (Z.of_nat (length (members (sget st o))))))) /\
  (forall c, rtells lk h st (let* (_, l) := look h o in let* r := indexOf l c in Ok (h, of_option r)) (Says (st, Some (said_of_option (position c (members (sget st o)) 0))))) /\
  (forall i, rtells lk h st (let* (_, l) := look h o in let* r := charAt l i in Ok (h, of_option r))
    (Says (st, Some (said_of_option (if i <? 0 then None else nth_error (members (sget st o)) (Z.to_nat i)))))).
Proof.
  intros G L. destruct (good_look h st o G L) as (a0 & l & E & B & S). rewrite E. cbn [bind].
  pose proof (elements_members l _ B S) as M. pose proof (iter_elements l) as IE. rewrite M in IE. split; [|split].
  - rewrite (size_spec l) by apply (built_WF _ B). cbn [bind]. rewrite M. apply same_tells; [exact G|exact I|intros u [= <-]; reflexivity].
  - intros c. destruct (indexOf_ok l _ c B IE) as (r & Er & H). rewrite Er. cbn [bind]. rewrite (position_spec _ c 0 r (members_strict _) H).
    apply same_tells; [exact G|destruct r; exact I|]. intros u [= <-]. destruct r; reflexivity.
  - intros i. rewrite (charAt_ok l _ i B IE). cbn [bind]. apply same_tells; [exact G|destruct (i <? 0); [exact I|destruct (nth_error _ _); exact I]|]. intros u [= <-]. destruct (i <? 0); [reflexivity|destruct (nth_error _ _); reflexivity].
Qed.

Lemma as_set_ok n v o : vok n v -> as_set v = Ok o -> (o < n)%nat.
Proof. destruct v; cbn; try discriminate. intros H [= <-]. exact H. Qed.

Lemma invoke_tells lk h st m o args : hgood h st -> (o < length st)%nat -> Forall (vok (length st)) args ->
  rtells lk h st (invoke h m o args) (said_invoke lk st m o args).
Proof.
  intros G L F. pose proof (views_tells lk h st o G L) as (V1 & V2 & V3).
  assert (M1 : forall k, objects k = [o] -> receiver k = Some o -> creates k = false -> rtells lk h st (self_call h o k) (mutate lk st o k)).
  { intros k O Rc C. apply mutate_ok; auto. rewrite O. auto. }
  assert (M2 : forall k p, (p < length st)%nat -> objects k = [o; p] -> receiver k = Some o -> creates k = false -> rtells lk h st (self_call h o k) (mutate lk st o k)).
  { intros k p P O Rc C. apply mutate_ok; auto. rewrite O. auto. }
  assert (M3 : forall k p, (p < length st)%nat -> objects k = [o; p] -> receiver k = None -> creates k = true -> rtells lk h st (new_call h k) (create st k)).
  { intros k p P O Rc C. apply create_ok; auto. rewrite O. auto. }
  destruct args as [|x [|y [|z r]]]; [| | |destruct m; reflexivity];
    repeat match goal with H : Forall _ (_ :: _) |- _ => inversion H; clear H; subst end; destruct m; try reflexivity; unfold invoke, said_invoke; auto;
    try (apply lift_tells; intros ? Q);
    try (eapply M2 || eapply M3; [exact (as_set_ok _ _ _ ltac:(eassumption) Q)|reflexivity|reflexivity|reflexivity]; fail);
    try (apply lift_tells; intros ? Q2; auto; fail); auto.
  - destruct x; try reflexivity; auto. destruct (step =? 1); [auto|exact I].
  - apply contains_tells; auto.
  - apply lift_tells; intros ? Q2. apply addRange_tells; auto.
Qed.
