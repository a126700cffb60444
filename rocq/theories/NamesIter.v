(** * CharNames: the iterator visits every named code point once, in order. *)
From Coq Require Import ZArith List Bool Lia ZifyBool Arith Sorting.Sorted.
From Verif Require Import Py Bytes Dict Utilities UtilitiesFacts ICUDataFile ICUFacts CharNames NamesFacts.
Import ListNotations.
Open Scope Z_scope.

(** ** Lists of code points with their names *)
Lemma py_range_in lo hi c : In c (py_range lo hi) <-> lo <= c < hi.
Proof.
  unfold py_range. rewrite in_map_iff. split.
  - intros (k & <- & Hk). apply in_seq in Hk. lia.
  - intros H. exists (Z.to_nat (c - lo)). split; [lia|]. apply in_seq. lia.
Qed.
Lemma py_range_empty lo hi : hi <= lo -> py_range lo hi = [].
Proof. intros H. unfold py_range. replace (Z.to_nat (hi - lo)) with 0%nat by lia. reflexivity. Qed.
Lemma py_range_app lo mid hi : lo <= mid <= hi -> py_range lo hi = py_range lo mid ++ py_range mid hi.
Proof.
  intros H. unfold py_range. replace (Z.to_nat (hi - lo)) with (Z.to_nat (mid - lo) + Z.to_nat (hi - mid))%nat by lia.
  rewrite seq_app, map_app. f_equal.
  assert (G : forall n a s, lo + Z.of_nat a = mid -> map (fun k => lo + Z.of_nat k) (seq (a + s) n) = map (fun k => mid + Z.of_nat k) (seq s n)).
  { induction n as [|n IH]; intros a s' E; cbn [seq map]; [reflexivity|]. f_equal; [lia|]. rewrite <- Nat.add_succ_r. apply IH. exact E. }
  rewrite <- (G _ (Z.to_nat (mid - lo)) 0%nat) by lia. rewrite Nat.add_0_r. reflexivity.
Qed.
Lemma py_range_sorted lo hi : StronglySorted Z.lt (py_range lo hi).
Proof.
  unfold py_range. generalize (Z.to_nat (hi - lo)) as n. generalize 0%nat as s. intros s n. revert s.
  induction n as [|n IH]; intros s; cbn [seq map]; constructor; [apply IH|].
  apply Forall_forall. intros x Hx. apply in_map_iff in Hx as (k & <- & Hk). apply in_seq in Hk. lia.
Qed.

Definition entry (c : Z) (n : str) : list (Z * str) := match n with [] => [] | _ => [(c, n)] end.
Definition listing (f : Z -> str) (lo hi : Z) : list (Z * str) := flat_map (fun c => entry c (f c)) (py_range lo hi).
Lemma listing_app f lo mid hi : lo <= mid <= hi -> listing f lo hi = listing f lo mid ++ listing f mid hi.
Proof. intros H. unfold listing. rewrite (py_range_app lo mid hi H). apply flat_map_app. Qed.
Lemma listing_ext f g lo hi : (forall c, lo <= c < hi -> f c = g c) -> listing f lo hi = listing g lo hi.
Proof.
  intros H. unfold listing. assert (G : forall c, In c (py_range lo hi) -> f c = g c) by (intros c Hc; apply H; apply py_range_in; exact Hc).
  induction (py_range lo hi) as [|c l IH]; cbn [flat_map]; [reflexivity|]. rewrite G by (left; reflexivity). rewrite IH; [reflexivity|]. intros x Hx. apply G. right. exact Hx.
Qed.
Lemma listing_none f lo hi : (forall c, lo <= c < hi -> f c = []) -> listing f lo hi = [].
Proof.
  intros H. unfold listing. assert (G : forall c, In c (py_range lo hi) -> f c = []) by (intros c Hc; apply H; apply py_range_in; exact Hc).
  induction (py_range lo hi) as [|c l IH]; cbn [flat_map]; [reflexivity|]. rewrite G by (left; reflexivity). apply IH. intros x Hx. apply G. right. exact Hx.
Qed.
Lemma listing_in f lo hi c n : In (c, n) (listing f lo hi) <-> lo <= c < hi /\ f c = n /\ n <> [].
Proof.
  unfold listing. rewrite in_flat_map. split.
  - intros (x & Hx & I). apply py_range_in in Hx. unfold entry in I. destruct (f x) as [|a r] eqn:E; [destruct I|]. destruct I as [I|[]].
    assert (x = c) as <- by congruence. assert (a :: r = n) as <- by congruence. repeat split; try lia; [exact E|discriminate].
  - intros (H & E & N). exists c. split; [apply py_range_in; exact H|]. rewrite E. unfold entry. destruct n; [congruence|]. left. reflexivity.
Qed.
Lemma listing_sorted f lo hi : StronglySorted Z.lt (map fst (listing f lo hi)).
Proof.
  unfold listing. pose proof (py_range_sorted lo hi) as S. induction S as [|c l S IH F]; cbn [flat_map map]; [constructor|].
  unfold entry at 1. destruct (f c) as [|a r]; cbn [app map fst]; [exact IH|]. constructor; [exact IH|].
  apply Forall_forall. intros x Hx. apply in_map_iff in Hx as ((x', n) & E & Hx). cbn in E. subst x'. apply in_flat_map in Hx as (y & Hy & I).
  unfold entry in I. destruct (f y); [destruct I|]. destruct I as [I|[]]. assert (y = x) as -> by congruence. rewrite Forall_forall in F. apply F. exact Hy.
Qed.
Lemma yield_ok g f codes : (forall c, In c codes -> g c = Ok (f c)) -> yieldNames g codes = (flat_map (fun c => entry c (f c)) codes, Ok tt).
Proof.
  induction codes as [|c l IH]; intros H; cbn [yieldNames flat_map]; [reflexivity|]. rewrite (H c (or_introl eq_refl)), IH by (intros x Hx; apply H; right; exact Hx).
  unfold gen_app. cbn [fst snd]. unfold entry. destruct (f c); reflexivity.
Qed.

(** ** Tables for which the iterator is right *)
Definition ranges_sorted (rs : list algRange) : Prop := StronglySorted (fun a b => a_stop a <= a_start b) rs.
(** the range holds all 32 code points of block [b], and no group does *)
Definition whole_block (gs : list group) (a : algRange) (b : Z) : Prop :=
  a_start a <= 32 * b /\ 32 * b + 32 <= a_stop a /\ forall g, In g gs -> g_msb g <> b.
Record names_wf (N : names) (choice : Z) : Prop := {
  w_groups : groups_sorted (n_groups N);
  w_some_group : n_groups N <> [];
  w_msb : Forall (fun g => 0 <= g_msb g) (n_groups N);
  w_group_names : forall g c, In g (n_groups N) -> in_block g c = true -> exists s, expandName (n_tokens N) g (Z.land c GROUP_MASK) choice = Ok s;
  w_ranges : ranges_sorted (n_ranges N);
  w_some_range : n_ranges N <> [];
  w_starts : Forall (fun a => 0 <= a_start a) (n_ranges N);
  w_range_names : forall a c, In a (n_ranges N) -> charInRange a c = true -> exists s, algName a c choice = Ok s;
  w_apart : forall g a c, In g (n_groups N) -> In a (n_ranges N) -> in_block g c = true -> charInRange a c = true ->
    expandName (n_tokens N) g (Z.land c GROUP_MASK) choice = Ok [];
  w_blocks : Forall (fun a => exists b, whole_block (n_groups N) a b) (n_ranges N) }.
(** the name that getCharName gives; empty for an exception *)
Definition the_name (N : names) (choice c : Z) : str := match getCharName N c choice with Ok s => s | Err _ => [] end.

Lemma msb_block g c : in_block g c = (g_msb g =? c / 32).
Proof. rewrite in_block_msb. change GROUP_SHIFT with 5. rewrite Z.shiftr_div_pow2 by lia. reflexivity. Qed.
Lemma group_span g : g_start g = 32 * g_msb g /\ g_stop g = 32 * g_msb g + 32.
Proof. unfold g_stop, g_start. change LINES_PER_GROUP with 32. change GROUP_SHIFT with 5. rewrite Z.shiftl_mul_pow2 by lia. change (2 ^ 5) with 32. lia. Qed.

Section Iter.
  Variables (N : names) (choice : Z).
  Hypothesis W : names_wf N choice.
  Hypothesis HC : choice <> U_EXTENDED_CHAR_NAME.
  Let gs := n_groups N.
  Let rs := n_ranges N.
  Let T := n_tokens N.
  Let nm := the_name N choice.

  Lemma range_unique a a' c : In a rs -> In a' rs -> charInRange a c = true -> charInRange a' c = true -> a = a'.
  Proof.
    pose proof (w_ranges _ _ W) as S. fold rs in S. unfold charInRange. intros I I' C C'.
    induction S as [|x l S IH F]; [destruct I|]. rewrite Forall_forall in F. destruct I as [->|I], I' as [->|I']; auto.
    - specialize (F a' I'). cbv beta in F. lia.
    - specialize (F a I). cbv beta in F. lia.
  Qed.
  Lemma find_range a c : In a rs -> charInRange a c = true -> find (fun a => charInRange a c) rs = Some a.
  Proof.
    intros I C. destruct (find (fun a => charInRange a c) rs) as [a'|] eqn:E.
    - apply find_some in E as [I' C']. f_equal. apply (range_unique a' a c); auto.
    - pose proof (find_none _ _ E a I). cbv beta in H. congruence.
  Qed.
  Lemma find_group c : getGroup N c = Ok (find (fun g => in_block g c) gs).
  Proof. apply getGroup_ok; [exact (w_groups _ _ W)|exact (w_some_group _ _ W)]. Qed.

  Lemma name_range a c : In a rs -> charInRange a c = true -> getCharName N c choice = Ok (nm c) /\ algName a c choice = Ok (nm c).
  Proof.
    intros I C. unfold nm, the_name, getCharName. fold rs. rewrite (find_range a c I C).
    destruct (w_range_names _ _ W a c I C) as (s & ->). auto.
  Qed.
  Definition no_range (c : Z) : Prop := forall a, In a rs -> charInRange a c = false.
  Lemma name_group g c : no_range c -> In g gs -> in_block g c = true ->
    getCharName N c choice = Ok (nm c) /\ expandName T g (Z.land c GROUP_MASK) choice = Ok (nm c).
  Proof.
    intros NR I C. unfold nm, the_name, getCharName. fold rs. rewrite (find_none_all _ rs NR). replace (choice =? U_EXTENDED_CHAR_NAME) with false by lia.
    unfold groupName. rewrite find_group. cbn [bind]. rewrite (find_block gs g c (w_groups _ _ W) I C). fold T.
    destruct (w_group_names _ _ W g c I C) as (s & E). fold T in E. rewrite E. auto.
  Qed.
  Lemma name_none c : no_range c -> (forall g, In g gs -> in_block g c = false) -> getCharName N c choice = Ok [] /\ nm c = [].
  Proof.
    intros NR NG. unfold nm, the_name, getCharName. fold rs. rewrite (find_none_all _ rs NR). replace (choice =? U_EXTENDED_CHAR_NAME) with false by lia.
    unfold groupName. rewrite find_group. cbn [bind]. rewrite (find_none_all _ gs NG). auto.
  Qed.
  Lemma name_total c : getCharName N c choice = Ok (nm c).
  Proof.
    destruct (find (fun a => charInRange a c) rs) as [a|] eqn:E.
    - apply find_some in E as [I C]. apply (name_range a c I C).
    - assert (NR : no_range c) by (intros a Ia; apply (find_none _ _ E a Ia)).
      destruct (find (fun g => in_block g c) gs) as [g|] eqn:G.
      + apply find_some in G as [I C]. apply (name_group g c NR I C).
      + destruct (name_none c NR) as [H1 H2]; [intros g Ig; apply (find_none _ _ G g Ig)|]. rewrite H2. exact H1.
  Qed.

  Variable lim : Z.
  Hypothesis Lg : forall g, In g gs -> g_stop g <= lim.
  Hypothesis Lr : forall a, In a rs -> a_stop a <= lim.

  Definition from (char r : Z) (rest : list algRange) : Z :=
    match rest with [] => Z.max (32 * (char / 32)) r | a :: _ => Z.min (Z.max (32 * (char / 32)) r) (a_start a) end.
  Record state_ok (char r : Z) (before rest : list algRange) : Prop := {
    s_r : 0 <= r <= char;
    s_split : rs = before ++ rest;
    s_before : Forall (fun a => a_stop a <= r) before;
    s_rest : Forall (fun a => r <= a_start a) rest;
    s_next : forall a l, rest = a :: l -> exists b, whole_block gs a b /\ char / 32 <= b;
    s_seen : r <= 32 * (char / 32) \/ (forall g, In g gs -> g_msb g <> char / 32) \/
             (forall c, 32 * (char / 32) <= c < r -> exists a, In a rs /\ charInRange a c = true) }.

  Lemma sorted_tail before a l : rs = before ++ a :: l -> Forall (fun x => a_stop a <= a_start x) l.
  Proof.
    pose proof (w_ranges _ _ W) as S. fold rs in S. intros E. rewrite E in S. clear E. induction before as [|x b IH]; cbn [app] in S; inversion S; subst; auto.
  Qed.
  Lemma between char r before rest c : state_ok char r before rest -> r <= c -> (forall a l, rest = a :: l -> c < a_start a) -> no_range c.
  Proof.
    intros [_ E B _ _ _] H1 H2 x Hx. rewrite E in Hx. unfold charInRange. apply in_app_iff in Hx as [Hx|Hx].
    - rewrite Forall_forall in B. specialize (B x Hx). cbv beta in B. lia.
    - destruct rest as [|a l]; [destruct Hx|]. specialize (H2 a l eq_refl). destruct Hx as [<-|Hx]; [lia|].
      pose proof (sorted_tail before a l E) as F. rewrite Forall_forall in F. specialize (F x Hx). cbv beta in F.
      assert (Ha : In a rs) by (rewrite E; apply in_app_iff; right; left; reflexivity).
      pose proof (w_blocks _ _ W) as K. rewrite Forall_forall in K. destruct (K a Ha) as (b & K1 & K2 & _). lia.
  Qed.

  Lemma iter_ok : forall fuel char r before rest, state_ok char r before rest -> (Z.to_nat (lim - char) <= fuel)%nat ->
    iterLoop fuel N choice lim char rest = (listing nm (from char r rest) lim, Ok tt).
  Proof.
    induction fuel as [|m IH]; intros char r before rest K Hf.
    all: pose proof K as [KR KS KB KT KN KE]; set (B := 32 * (char / 32)) in *;
      assert (HB : B <= char < B + 32) by (unfold B; pose proof (Z.div_mod char 32 ltac:(lia)); pose proof (Z.mod_pos_bound char 32 ltac:(lia)); lia).
    all: assert (Stop : lim <= char -> ([] : list (Z * str), Ok tt) = (listing nm (from char r rest) lim, Ok tt)).
    1,3: intros HL; f_equal; symmetry; apply listing_none; intros c Hc; destruct rest as [|a l];
      [|exfalso; destruct (KN a l eq_refl) as (b & (K1 & K2 & _) & K3); assert (Ia : In a rs) by (rewrite KS; apply in_app_iff; right; left; reflexivity);
        pose proof (Lr a Ia); pose proof (Z.div_lt_upper_bound); lia];
      cbn [from] in Hc; apply name_none; [apply (between char r before [] c K); [lia|congruence]|];
      intros g Ig; rewrite msb_block; pose proof (Lg g Ig) as Q; destruct (group_span g) as [_ G2]; apply Z.eqb_neq; intros E;
      assert (c / 32 = char / 32) by (symmetry; apply (Z.div_unique c 32 (char / 32) (c - B)); unfold B in *; lia);
      unfold B in *; lia.
    - cbn [iterLoop]. replace (char <? lim) with false by lia. cbn [negb]. apply Stop. lia.
    - cbn [iterLoop]. destruct (char <? lim) eqn:HL; cbn [negb]; [|apply Stop; lia]. clear Stop.
      rewrite find_group. destruct (find (fun g => in_block g char) gs) as [g|] eqn:G.
      + (* a group *)
        apply find_some in G as [Ig Cg]. pose proof Cg as Cg'. unfold in_block in Cg'. rewrite Cg'. rewrite msb_block in Cg.
        destruct (group_span g) as [G1 G2]. assert (Eg : g_msb g = char / 32) by lia.
        assert (ES : g_start g = B) by (unfold B; lia). assert (EP : g_stop g = B + 32) by (unfold B; lia).
        assert (InB : forall c, B <= c < B + 32 -> in_block g c = true).
        { intros c Hc. unfold in_block. rewrite ES, EP. lia. }
        set (gn := fun c => match expandName T g (Z.land c GROUP_MASK) choice with Ok s => s | Err _ => [] end).
        fold T. rewrite (yield_ok _ gn).
        2:{ intros c Hc. apply py_range_in in Hc. rewrite ES, EP in Hc. unfold gn. destruct (w_group_names _ _ W g c Ig (InB c Hc)) as (s & E). fold T in E. rewrite E. reflexivity. }
        fold (listing gn (g_start g) (g_stop g)). rewrite ES, EP.
        assert (Next : forall a l, rest = a :: l -> exists b, whole_block gs a b /\ B + 32 <= 32 * b).
        { intros a l E. destruct (KN a l E) as (b & Wb & Hb). exists b. split; [exact Wb|]. destruct Wb as (_ & _ & Wg). specialize (Wg g Ig). unfold B. lia. }
        assert (DB : (B + 32) / 32 = char / 32 + 1) by (unfold B; replace (32 * (char / 32) + 32) with ((char / 32 + 1) * 32) by lia; apply Z.div_mul; lia).
        assert (K' : state_ok (B + 32) r before rest).
        { constructor; auto; [lia| |left; rewrite DB; unfold B in *; lia].
          intros a l E. destruct (Next a l E) as (b & Wb & Hb). exists b. split; [exact Wb|]. rewrite DB. unfold B in Hb. lia. }
        rewrite (IH (B + 32) r before rest K') by lia. unfold gen_app. cbn [fst snd]. f_equal.
        (* the group gives the names of its block that are in no range *)
        assert (GN : forall c, B <= c < B + 32 -> (no_range c -> gn c = nm c) /\ ((exists a, In a rs /\ charInRange a c = true) -> gn c = [])).
        { intros c Hc. split.
          - intros NR. destruct (name_group g c NR Ig (InB c Hc)) as [_ E]. unfold gn. rewrite E. reflexivity.
          - intros (a & Ia & Ca). unfold gn. pose proof (w_apart _ _ W g a c Ig Ia (InB c Hc) Ca) as E. fold T in E. rewrite E. reflexivity. }
        assert (FN : from (B + 32) r rest = match rest with [] => B + 32 | a :: _ => Z.min (B + 32) (a_start a) end).
        { unfold from. rewrite DB. replace (32 * (char / 32 + 1)) with (B + 32) by (unfold B; lia). destruct rest; lia. }
        assert (Early : forall c, B <= c < Z.max B r -> gn c = []).
        { intros c Hc. apply (GN c); [lia|]. destruct KE as [KE|[KE|KE]]; [lia|specialize (KE g Ig); lia|apply KE; lia]. }
        rewrite FN. destruct rest as [|a l].
        * cbn [from]. fold B. rewrite (listing_app gn B (Z.max B r) (B + 32)) by lia.
          rewrite (listing_none gn B (Z.max B r) Early). cbn [app].
          assert (LB : B + 32 <= lim) by (rewrite <- EP; apply Lg; exact Ig).
          rewrite (listing_app nm (Z.max B r) (B + 32) lim) by lia. f_equal. apply listing_ext. intros c Hc.
          apply (GN c); [lia|]. apply (between char r before [] c K); [lia|congruence].
        * destruct (Next a l eq_refl) as (b & (Wb1 & Wb2 & _) & Hb). cbn [from]. fold B.
          assert (Ia : In a rs) by (rewrite KS; apply in_app_iff; right; left; reflexivity). pose proof (Lr a Ia) as La.
          set (st := Z.min (B + 32) (a_start a)). set (f0 := Z.min (Z.max B r) (a_start a)).
          assert (Late : forall c, Z.max B (a_start a) <= c < B + 32 -> gn c = []).
          { intros c Hc. apply (GN c); [lia|]. exists a. split; [exact Ia|]. unfold charInRange. lia. }
          assert (RA : r <= a_start a) by (inversion KT; assumption).
          destruct (Z_le_gt_dec (a_start a) B) as [Lo|Hi].
          -- (* the range has begun *)
             assert (st = a_start a) as -> by lia. assert (f0 = a_start a) as -> by lia.
             rewrite (listing_none gn B (B + 32)); [reflexivity|]. intros c Hc. apply Late. lia.
          -- assert (f0 = Z.max B r) as -> by lia. rewrite (listing_app gn B (Z.max B r) (B + 32)) by lia. rewrite (listing_none gn B (Z.max B r) Early). cbn [app].
             rewrite (listing_app gn (Z.max B r) st (B + 32)) by lia. rewrite (listing_none gn st (B + 32)) by (intros c Hc; apply Late; lia). rewrite app_nil_r.
             rewrite (listing_app nm (Z.max B r) st lim) by lia. f_equal. apply listing_ext. intros c Hc.
             apply (GN c); [lia|]. apply (between char r before (a :: l) c K); [lia|]. intros a' l' E'. assert (a' = a) as -> by congruence. lia.
      + assert (NG : forall g, In g gs -> g_msb g <> char / 32).
        { intros g Ig E. pose proof (find_none _ _ G g Ig) as Q. cbv beta in Q. rewrite msb_block in Q. lia. }
        assert (NB : forall c, B <= c < B + 32 -> no_range c -> nm c = []).
        { intros c Hc NR. apply name_none; [exact NR|]. intros g Ig. rewrite msb_block. specialize (NG g Ig).
          assert (c / 32 = char / 32) by (symmetry; apply (Z.div_unique c 32 (char / 32) (c - B)); unfold B in *; lia). lia. }
        assert (Step : (forall a l, rest = a :: l -> charInRange a char = false) ->
          iterLoop m N choice lim (char + LINES_PER_GROUP) rest = (listing nm (from char r rest) lim, Ok tt)).
        { intros NA. change LINES_PER_GROUP with 32. assert (DB : (char + 32) / 32 = char / 32 + 1) by (apply (Z.div_add char 1 32); lia).
          assert (Next : forall a l, rest = a :: l -> exists b, whole_block gs a b /\ char / 32 + 1 <= b).
          { intros a l E. destruct (KN a l E) as (b & Wb & Hb). exists b. split; [exact Wb|].
            destruct (Z.eq_dec b (char / 32)) as [->|]; [|lia]. specialize (NA a l E). destruct Wb as (W1 & W2 & _). unfold charInRange in NA. unfold B in *. lia. }
          assert (K' : state_ok (char + 32) r before rest).
          { constructor; auto; [lia| |left; rewrite DB; unfold B in *; lia].
            intros a l E. rewrite DB. apply (Next a l E). }
          rewrite (IH (char + 32) r before rest K') by lia. f_equal. unfold from. rewrite DB. replace (32 * (char / 32 + 1)) with (B + 32) by (unfold B; lia). fold B.
          destruct rest as [|a l].
          - destruct (Z_le_gt_dec lim (Z.max B r)) as [Q|Q].
            { rewrite (listing_none nm (Z.max B r) lim) by lia. apply listing_none. lia. }
            destruct (Z_le_gt_dec lim (B + 32)) as [Q2|Q2].
            { rewrite (listing_none nm (Z.max (B + 32) r) lim) by lia. symmetry. apply listing_none. intros c Hc. apply NB; [lia|].
              apply (between char r before [] c K); [lia|congruence]. }
            rewrite (listing_app nm (Z.max B r) (B + 32) lim) by lia. replace (Z.max (B + 32) r) with (B + 32) by lia.
            rewrite (listing_none nm (Z.max B r) (B + 32)); [reflexivity|]. intros c Hc. apply NB; [lia|].
            apply (between char r before [] c K); [lia|congruence].
          - destruct (Next a l eq_refl) as (b & (Wb1 & Wb2 & _) & Hb).
            assert (Ia : In a rs) by (rewrite KS; apply in_app_iff; right; left; reflexivity). pose proof (Lr a Ia) as La.
            assert (RA : r <= a_start a) by (inversion KT; assumption).
            replace (Z.max (B + 32) r) with (B + 32) by lia.
            destruct (Z_le_gt_dec (a_start a) (Z.max B r)) as [Lo|Hi].
            { replace (Z.min (B + 32) (a_start a)) with (a_start a) by lia. replace (Z.min (Z.max B r) (a_start a)) with (a_start a) by lia. reflexivity. }
            replace (Z.min (Z.max B r) (a_start a)) with (Z.max B r) by lia. set (st := Z.min (B + 32) (a_start a)).
            rewrite (listing_app nm (Z.max B r) st lim) by (unfold B in *; lia). rewrite (listing_none nm (Z.max B r) st); [reflexivity|].
            intros c Hc. apply NB; [lia|]. apply (between char r before (a :: l) c K); [lia|]. intros a' l' E'. assert (a' = a) as -> by congruence. lia. }
        destruct rest as [|a l]; [apply Step; congruence|]. destruct (charInRange a char) eqn:CA; [|apply Step; intros a' l' E'; assert (a' = a) as -> by congruence; exact CA].
        clear Step. assert (Ia : In a rs) by (rewrite KS; apply in_app_iff; right; left; reflexivity). pose proof (Lr a Ia) as La.
        assert (RA : r <= a_start a) by (inversion KT; assumption). unfold charInRange in CA.
        rewrite (yield_ok _ nm).
        2:{ intros c Hc. apply py_range_in in Hc. apply (name_range a c Ia). unfold charInRange. lia. }
        fold (listing nm (a_start a) (a_stop a)).
        assert (HS : 32 * (a_stop a / 32) <= a_stop a < 32 * (a_stop a / 32) + 32) by (pose proof (Z.div_mod (a_stop a) 32 ltac:(lia)); pose proof (Z.mod_pos_bound (a_stop a) 32 ltac:(lia)); lia).
        assert (K' : state_ok (a_stop a) (a_stop a) (before ++ [a]) l).
        { pose proof (sorted_tail before a l KS) as ST. constructor.
          - lia.
          - rewrite <- app_assoc. exact KS.
          - apply Forall_app. split; [|constructor; [lia|constructor]]. eapply Forall_impl; [|exact KB]. cbv beta. intros x Hx. lia.
          - exact ST.
          - intros a' l' E'. assert (Ia' : In a' rs) by (rewrite KS, E'; apply in_app_iff; right; right; left; reflexivity).
            pose proof (w_blocks _ _ W) as KW. rewrite Forall_forall in KW. destruct (KW a' Ia') as (b & Wb). exists b. split; [exact Wb|].
            destruct Wb as (W1 & _ & _). rewrite E' in ST. inversion ST; subst. lia.
          - destruct (Z_le_gt_dec (a_start a) (32 * (a_stop a / 32))) as [Q|Q].
            + right. right. intros c Hc. exists a. split; [exact Ia|]. unfold charInRange. lia.
            + right. left. intros g Ig E. apply (NG g Ig). rewrite E. apply (Z.div_unique char 32 _ (char - 32 * (a_stop a / 32))); lia. }
        rewrite (IH (a_stop a) (a_stop a) (before ++ [a]) l K') by lia. unfold gen_app. cbn [fst snd]. f_equal.
        assert (FN : from (a_stop a) (a_stop a) l = a_stop a).
        { unfold from. destruct l as [|x l']; [lia|]. pose proof (sorted_tail before a (x :: l') KS) as ST. inversion ST; subst. lia. }
        rewrite FN. cbn [from]. fold B. rewrite <- (listing_app nm (a_start a) (a_stop a) lim) by lia.
        destruct (Z_le_gt_dec (a_start a) (Z.max B r)) as [Lo|Hi].
        { replace (Z.min (Z.max B r) (a_start a)) with (a_start a) by lia. reflexivity. }
        replace (Z.min (Z.max B r) (a_start a)) with (Z.max B r) by lia. rewrite (listing_app nm (Z.max B r) (a_start a) lim) by lia.
        rewrite (listing_none nm (Z.max B r) (a_start a)); [reflexivity|]. intros c Hc. apply NB; [lia|].
        apply (between char r before (a :: l) c K); [lia|]. intros a' l' E'. assert (a' = a) as -> by congruence. lia.
  Qed.
End Iter.

Lemma py_get_last {A} (l : list A) x : py_get (l ++ [x]) (-1) = Ok x.
Proof.
  unfold py_get. change (-1 <? 0) with true. cbn iota. rewrite zlen_app. change (zlen [x]) with 1. pose proof (zlen_nonneg l).
  replace (-1 + (zlen l + 1) <? 0) with false by lia. replace (Z.to_nat (-1 + (zlen l + 1))) with (length l) by (unfold zlen; lia).
  rewrite nth_error_app2, Nat.sub_diag by lia. reflexivity.
Qed.
Lemma sorted_last {A} (R : A -> A -> Prop) l x : StronglySorted R (l ++ [x]) -> Forall (fun y => R y x) l.
Proof.
  induction l as [|y l IH]; cbn [app]; intros S; [constructor|]. inversion S as [|? ? S' F]; subst. constructor; [|apply IH; exact S'].
  rewrite Forall_forall in F. apply F. apply in_app_iff. right. left. reflexivity.
Qed.

Theorem iterator_listing N choice : names_wf N choice -> choice <> U_EXTENDED_CHAR_NAME ->
  exists lim, nameIterator N choice = (listing (the_name N choice) 0 lim, Ok tt) /\
    (forall g, In g (n_groups N) -> g_stop g <= lim) /\ (forall a, In a (n_ranges N) -> a_stop a <= lim).
Proof.
  intros W HC. unfold nameIterator.
  destruct (exists_last (w_some_group _ _ W)) as (gl & g & EG). destruct (exists_last (w_some_range _ _ W)) as (al & a & EA).
  rewrite EG, EA, !py_get_last. set (lim := Z.max (g_stop g) (a_stop a)). exists lim.
  assert (Lg : forall x, In x (n_groups N) -> g_stop x <= lim).
  { intros x Hx. pose proof (w_groups _ _ W) as S. rewrite EG in Hx, S. apply sorted_last in S. apply in_app_iff in Hx as [Hx|[->|[]]]; [|lia].
    rewrite Forall_forall in S. specialize (S x Hx). cbv beta in S. destruct (group_span x), (group_span g). lia. }
  assert (La : forall x, In x (n_ranges N) -> a_stop x <= lim).
  { intros x Hx. pose proof (w_blocks _ _ W) as KW. pose proof (w_ranges _ _ W) as S. rewrite EA in Hx, S, KW. apply sorted_last in S. apply Forall_app in KW as [_ KW].
    inversion KW as [|? ? (b & K1 & K2 & _) _]; subst. apply in_app_iff in Hx as [Hx|[->|[]]]; [|lia].
    rewrite Forall_forall in S. specialize (S x Hx). cbv beta in S. lia. }
  split; [|split; [rewrite <- EG; exact Lg|rewrite <- EA; exact La]].
  assert (K0 : state_ok N 0 0 [] (n_ranges N)).
  { constructor; auto.
    - lia.
    - eapply Forall_impl; [|exact (w_starts _ _ W)]. auto.
    - intros x l E. pose proof (w_blocks _ _ W) as KW. pose proof (w_starts _ _ W) as ST. rewrite E in KW, ST. inversion KW as [|? ? (b & K1 & K2 & K3) _]; subst. inversion ST; subst.
      exists b. split; [repeat split; assumption|]. change (0 / 32) with 0. lia.
    - left. change (0 / 32) with 0. lia. }
  rewrite <- EA. rewrite (iter_ok N choice W HC lim Lg La (Z.to_nat lim) 0 0 [] (n_ranges N) K0) by lia. f_equal. f_equal.
  unfold from. change (32 * (0 / 32)) with 0. pose proof (w_starts _ _ W) as ST. destruct (n_ranges N) as [|x l]; [reflexivity|]. inversion ST; subst. lia.
Qed.
Lemma name_outside N choice lim c : names_wf N choice -> choice <> U_EXTENDED_CHAR_NAME ->
  (forall g, In g (n_groups N) -> g_stop g <= lim) -> (forall a, In a (n_ranges N) -> a_stop a <= lim) -> ~ 0 <= c < lim -> the_name N choice c = [].
Proof.
  intros W HC Lg La H. apply (name_none N choice W HC).
  - intros a Ia. specialize (La a Ia). pose proof (w_starts _ _ W) as ST. rewrite Forall_forall in ST. specialize (ST a Ia). cbv beta in ST. unfold charInRange. lia.
  - intros g Ig. specialize (Lg g Ig). pose proof (w_msb _ _ W) as ST. rewrite Forall_forall in ST. specialize (ST g Ig). cbv beta in ST. unfold in_block. destruct (group_span g). lia.
Qed.
Theorem iterator_exact N choice : names_wf N choice -> choice <> U_EXTENDED_CHAR_NAME ->
  snd (nameIterator N choice) = Ok tt /\
  (forall c n, In (c, n) (fst (nameIterator N choice)) <-> n <> [] /\ getCharName N c choice = Ok n) /\
  StronglySorted Z.lt (map fst (fst (nameIterator N choice))).
Proof.
  intros W HC. destruct (iterator_listing N choice W HC) as (lim & -> & Lg & La). cbn [fst snd]. split; [reflexivity|]. split; [|apply listing_sorted].
  intros c n. rewrite listing_in. rewrite (name_total N choice W HC c). split.
  - intros (_ & E & NE). split; [exact NE|]. rewrite E. reflexivity.
  - intros (NE & E). assert (E' : the_name N choice c = n) by congruence. split; [|auto].
    destruct (Z_le_dec 0 c) as [Q1|Q1]; [destruct (Z_lt_dec c lim) as [Q2|Q2]; [lia|]|]; exfalso; apply NE; rewrite <- E'; apply (name_outside N choice lim c W HC Lg La); lia.
Qed.
Lemma find_first (f : Z * str -> bool) l x : StronglySorted Z.lt (map fst l) -> In x l -> f x = true ->
  exists y, find f l = Some y /\ In y l /\ f y = true /\ fst y <= fst x.
Proof.
  intros S Hin Hx. induction l as [|z l IH]; [destruct Hin|]. cbn [map] in S. inversion S as [|? ? S' F]; subst. cbn [find]. destruct (f z) eqn:E.
  - exists z. split; [reflexivity|]. split; [left; reflexivity|]. split; [exact E|]. destruct Hin as [->|Hin]; [lia|].
    rewrite Forall_forall in F. specialize (F (fst x) (in_map fst l x Hin)). lia.
  - destruct Hin as [->|Hin]; [congruence|]. destruct (IH S' Hin) as (y & A & B & C & D'). exists y. repeat split; auto. right. exact B.
Qed.
Theorem lookup_found N choice name c : names_wf N choice -> choice <> U_EXTENDED_CHAR_NAME -> name <> [] -> getCharName N c choice = Ok name ->
  exists c', charFromName N name choice = Ok c' /\ getCharName N c' choice = Ok name /\ forall d, getCharName N d choice = Ok name -> c' <= d.
Proof.
  intros W HC NE E. destruct (iterator_exact N choice W HC) as (E1 & E2 & E3). unfold charFromName.
  assert (G : forall d, getCharName N d choice = Ok name -> exists y, find (fun cn => str_eqb (snd cn) name) (fst (nameIterator N choice)) = Some y /\
    In y (fst (nameIterator N choice)) /\ str_eqb (snd y) name = true /\ fst y <= d).
  { intros d Hd. apply (find_first (fun cn => str_eqb (snd cn) name) _ (d, name) E3); [apply E2; auto|]. cbn. apply str_eqb_refl. }
  destruct (G c E) as ((c', n') & F & I & Q & _). rewrite F. exists c'. split; [reflexivity|]. cbn [snd fst] in *. apply str_eqb_eq in Q. subst n'.
  split; [apply E2 in I; apply I|]. intros d Hd. destruct (G d Hd) as (y & F' & _ & _ & L). rewrite F in F'. assert (Some (c', name) = Some y) as Ey by exact F'. inversion Ey. subst y. exact L.
Qed.
Theorem lookup_missing N choice name : names_wf N choice -> choice <> U_EXTENDED_CHAR_NAME -> name = [] \/ (forall c, getCharName N c choice <> Ok name) ->
  charFromName N name choice = Ok 0xFFFFFFFF.
Proof.
  intros W HC H. destruct (iterator_exact N choice W HC) as (E1 & E2 & _). unfold charFromName.
  destruct (find _ _) as [(c, n)|] eqn:F.
  - exfalso. apply find_some in F as [I Q]. cbn in Q. apply str_eqb_eq in Q. subst n. apply E2 in I as [NE E]. destruct H as [H|H]; [congruence|]. apply (H c E).
  - rewrite E1. reflexivity.
Qed.
