(** * C124: sets collected from enumerations *)
From Coq Require Import ZArith List Bool Lia ZifyBool Sorted.
From Verif Require Import Py Arr UnicodeSet SpecSet UnicodeSetFacts UnicodeSetMerge UnicodeSetOps UnicodeSetViews UnicodeSetReach UnicodeSetLaws
  UTrie2 UTrie2Enum UTrie2EnumVal UTrie2EnumMany CPTrie CPTrieBuild CPTrieEnum CharProps EnumShipped CharShipped Prop_UTrie2 Prop_OtherInts Prop_CPTrie Prop_Enum.
Import ListNotations.
Open Scope Z_scope.

(** ** The loop of a caller:
[s = UnicodeSet()
for r, v in trie.enumerator(...):
    if keep(v): s.addRange(r.start, r.stop - 1)] *)
Fixpoint collect {V} (keep : V -> bool) (rs : list (Z * Z * V)) (l : uset) : res uset :=
  match rs with
  | [] => Ok l
  | (a, b, v) :: r => if keep v then let* (l, _) := addRange l a (b - 1) in collect keep r l else collect keep r l
  end.
Definition among {V} (keep : V -> bool) (rs : list (Z * Z * V)) : cpset := fun c => existsb (fun '(a, b, v) => (a <=? c) && (c <? b) && keep v) rs.

Lemma collect_from {V} (keep : V -> bool) rs : (forall a b v, In (a, b, v) rs -> 0 <= a <= b /\ b <= 0x110000) -> forall l s, UnicodeSetReach.clean l -> is_set l s ->
  exists r, collect keep rs l = Ok r /\ UnicodeSetReach.clean r /\ is_set r (s_union s (among keep rs)).
Proof.
  induction rs as [|[[a b] v] rs IH]; intros H l s C S; cbn [collect].
  - exists l. split; [reflexivity|]. split; [exact C|]. intros c Hc. rewrite (S c Hc). unfold s_union, among. cbn [existsb]. rewrite orb_false_r. reflexivity.
  - pose proof (H a b v (or_introl eq_refl)) as B. assert (H' : forall a b v, In (a, b, v) rs -> 0 <= a <= b /\ b <= 0x110000) by (intros; eapply H; right; eassumption).
    destruct (keep v) eqn:K; [destruct (Z.eq_dec a b) as [->|N]|].
    + assert (E : addRange l b (b - 1) = Ok (l, RSelf)).
      { unfold addRange, pin, LOW, HIGH. replace (_ <? _) with false by (destruct (b <? 0) eqn:?, (b - 1 <? 0) eqn:?, (0x110000 - 1 <? b) eqn:?, (0x110000 - 1 <? b - 1) eqn:?; lia). replace (b =? b - 1) with false by lia. reflexivity. }
      rewrite E. destruct (IH H' l s C S) as (r & R & Cr & Sr). exists r. split; [exact R|]. split; [exact Cr|].
      intros c Hc. rewrite (Sr c Hc). f_equal. unfold s_union, among. cbn [existsb]. replace ((b <=? c) && (c <? b)) with false by lia. reflexivity.
    + destruct (addRange_ok l s a (b - 1) (clean_built _ C) S ltac:(unfold is_cp; lia) ltac:(unfold is_cp; lia) ltac:(lia)) as (l1 & x & E & _ & S1).
      assert (C1 : UnicodeSetReach.clean l1) by (apply (c_addRange l a (b - 1) l1 x); [exact C|unfold is_cp; lia|unfold is_cp; lia|exact E]).
      destruct (IH H' l1 _ C1 S1) as (r & R & Cr & Sr). exists r. rewrite E. split; [exact R|]. split; [exact Cr|].
      intros c Hc. rewrite (Sr c Hc). f_equal. unfold s_union, s_span, among. cbn [existsb]. rewrite K, andb_true_r, orb_assoc. do 2 f_equal. lia.
    + destruct (IH H' l s C S) as (r & R & Cr & Sr). exists r. split; [exact R|]. split; [exact Cr|].
      intros c Hc. rewrite (Sr c Hc). f_equal. unfold s_union, among. cbn [existsb]. rewrite K, andb_false_r. reflexivity.
Qed.
Lemma among_in {V} (keep : V -> bool) rs c : among keep rs c = true <-> exists a b v, In (a, b, v) rs /\ a <= c < b /\ keep v = true.
Proof.
  unfold among. rewrite existsb_exists. split.
  - intros ([[a b] v] & I & E). exists a, b, v. apply andb_true_iff in E as [E K]. split; [exact I|split; [lia|exact K]].
  - intros (a & b & v & I & R & K). exists (a, b, v). split; [exact I|]. rewrite K. lia.
Qed.
Lemma empty_set : is_set new_empty s_empty.
Proof. intros c Hc. rewrite contains_par; [|apply WF_empty|unfold is_cp in Hc; unfold HIGH; lia]. unfold new_empty. cbn [par]. unfold HIGH, s_empty. unfold is_cp in Hc. replace (0x110000 <=? c) with false by lia. reflexivity. Qed.
(** *** The loop never fails, and the set has exactly the code points of the ranges that were kept.  As it is
    built without union, it is equal to any other set of these code points that is (C11). *)
Theorem C124_collect : forall V (keep : V -> bool) rs, (forall a b v, In (a, b, v) rs -> 0 <= a <= b /\ b <= 0x110000) ->
  exists l, collect keep rs new_empty = Ok l /\ UnicodeSetReach.clean l /\
    (forall c, is_cp c -> exists x, contains l c = Ok x /\ (x = true <-> exists a b v, In (a, b, v) rs /\ a <= c < b /\ keep v = true)).
Proof.
  intros V keep rs H. destruct (collect_from keep rs H new_empty s_empty c_new empty_set) as (l & E & C & S). exists l. split; [exact E|]. split; [exact C|].
  intros c Hc. exists (among keep rs c). split; [exact (S c Hc)|apply among_in].
Qed.
Print Assumptions C124_collect.

(** ** The ranges of the set *)
Fixpoint apart (lo : Z) (ks : list (Z * Z)) : Prop := match ks with [] => True | (a, b) :: r => lo < a /\ a < b /\ apart b r end.
Definition kept {V} (keep : V -> bool) (rs : list (Z * Z * V)) : list (Z * Z) := map fst (filter (fun '(_, v) => keep v) rs).
Lemma apart_less lo lo' ks : lo' <= lo -> apart lo ks -> apart lo' ks.
Proof. destruct ks as [|[a b] r]; [auto|]. cbn [apart]. intros L (A & B & C). split; [lia|split; assumption]. Qed.
Lemma kept_apart {V} (veq : V -> V -> bool) (VE : forall x y, veq x y = true <-> x = y) w rs : forall lo hi, tiles lo rs hi -> changes rs ->
  apart (lo - 1) (kept (veq w) rs) /\ (match rs with (_, _, v) :: _ => v <> w | [] => True end -> apart lo (kept (veq w) rs)).
Proof.
  induction rs as [|[[a b] v] rs IH]; intros lo hi T C; [split; constructor|]. cbn [tiles] in T. destruct T as (-> & AB & T).
  assert (C' : changes rs) by (cbn [changes] in C; destruct rs as [|[[x y] z] rs]; [constructor|apply C]). destruct (IH b hi T C') as [I1 I2].
  unfold kept. cbn [filter]. destruct (veq w v) eqn:K.
  - apply VE in K. subst v. cbn [map fst apart]. split; [|intros N; exfalso; exact (N eq_refl)]. split; [lia|]. split; [exact AB|]. apply I2. clear - C. cbn [changes] in C.
    destruct rs as [|[[x y] z] rs]; [constructor|]. destruct C as [C _]. congruence.
  - fold (kept (veq w) rs). split; [|intros _]; (eapply apart_less; [|exact I1]); lia.
Qed.
Fixpoint bounds (ks : list (Z * Z)) : list Z := match ks with [] => [HIGH] | (a, b) :: r => a :: if b =? HIGH then [HIGH] else b :: bounds r end.
Lemma bounds_ok ks : forall lo, apart lo ks -> Forall (fun k => snd k <= HIGH) ks -> lo < HIGH ->
  strict (bounds ks) /\ Forall (fun x => lo < x <= HIGH) (bounds ks) /\ (exists p, bounds ks = p ++ [HIGH]) /\ pairs (bounds ks) = ks /\
  forall c, c < HIGH -> par (bounds ks) c = existsb (fun '(a, b) => (a <=? c) && (c <? b)) ks.
Proof.
  induction ks as [|[a b] ks IH]; intros lo A B L; cbn [bounds].
  { split; [repeat constructor|]. split; [repeat constructor; lia|]. split; [exists []; reflexivity|]. split; [reflexivity|]. intros c Hc. cbn [par existsb]. replace (HIGH <=? c) with false by lia. reflexivity. }
  cbn [apart] in A. destruct A as (A1 & A2 & A). apply Forall_cons_iff in B as [B1 B]. cbn [snd] in B1. destruct (Z.eqb_spec b HIGH) as [->|N].
  - assert (ks = []) as ->. { destruct ks as [|[x y] ks]; [reflexivity|]. exfalso. cbn [apart] in A. apply Forall_cons_iff in B as [B _]. cbn [snd] in B. lia. }
    split; [constructor; [repeat constructor|repeat constructor; exact A2]|]. split; [repeat constructor; lia|]. split; [exists [a]; reflexivity|]. split; [reflexivity|].
    intros c Hc. cbn [par existsb]. replace (HIGH <=? c) with false by lia. replace (c <? HIGH) with true by lia. rewrite andb_true_r, orb_false_r, !xorb_false_r. reflexivity.
  - destruct (IH b A B ltac:(lia)) as (S & F & (p & P) & Q & R). split.
    + apply strict_cons; [apply strict_cons; [exact S|]|constructor; [exact A2|]]; (refine (Forall_impl _ _ F); intros x Hx; cbv beta in Hx; lia).
    + split; [constructor; [lia|]; constructor; [lia|]; refine (Forall_impl _ _ F); intros x Hx; cbv beta in Hx; lia|]. split; [exists (a :: b :: p); rewrite P; reflexivity|].
      split; [cbn [pairs]; rewrite Q; reflexivity|]. intros c Hc. cbn [par existsb]. destruct (Z_lt_le_dec c b) as [M|M].
      * assert (E : par (bounds ks) c = false) by (apply par_gt; refine (Forall_impl _ _ F); intros x Hx; cbv beta in Hx; lia). rewrite <- (R c Hc), E. replace (b <=? c) with false by lia. replace (c <? b) with true by lia.
        rewrite andb_true_r, orb_false_r, !xorb_false_r. reflexivity.
      * rewrite <- (R c Hc). replace (a <=? c) with true by lia. replace (b <=? c) with true by lia. replace (c <? b) with false by lia. destruct (par (bounds ks) c); reflexivity.
Qed.
(** *** If the ranges are an enumeration and one value is asked for, the set lists the ranges of this value as
    they were enumerated. *)
Theorem C124_ranges : forall V (veq : V -> V -> bool) start rs hi, (forall x y, veq x y = true <-> x = y) -> 0 <= start -> hi <= 0x110000 -> partition start rs hi ->
  forall w, exists l, collect (veq w) rs new_empty = Ok l /\ getRanges l = Ok (map fst (filter (fun '(_, v) => veq w v) rs)).
Proof.
  intros V veq start rs hi VE SH HH [T C] w.
  assert (IN : forall (rs : list (Z * Z * V)) lo, tiles lo rs hi -> 0 <= lo -> lo <= hi /\ forall a b v, In (a, b, v) rs -> 0 <= a < b /\ b <= hi).
  { clear - HH. induction rs as [|[[a b] v] rs IH]; intros lo T L; cbn [tiles] in T; [split; [lia|intros a b v []]|]. destruct T as (-> & AB & T).
    destruct (IH b T ltac:(lia)) as [LB I]. split; [lia|]. intros x y z [E|J]; [injection E as <- <- <-; lia|exact (I x y z J)]. }
  destruct (IN rs start T SH) as [LS I]. assert (H : forall a b v, In (a, b, v) rs -> 0 <= a <= b /\ b <= 0x110000) by (intros a b v J; specialize (I a b v J); lia).
  destruct (collect_from (veq w) rs H new_empty s_empty c_new empty_set) as (l & E & CL & S). exists l. split; [exact E|].
  destruct (kept_apart veq VE w rs start hi T C) as [A _]. fold (kept (veq w) rs). set (ks := kept (veq w) rs) in *.
  assert (B : Forall (fun k => snd k <= HIGH) ks).
  { apply Forall_forall. intros [a b] J. unfold ks, kept in J. apply in_map_iff in J as ([k v] & Q & J). cbn [fst] in Q. subst k. apply filter_In in J as [J _]. cbn [snd]. unfold HIGH. apply (H a b v J). }
  destruct (bounds_ok ks (start - 1) A B ltac:(unfold HIGH; lia)) as (ST & F & (p & P) & Q & R).
  assert (CB : Canon (bounds ks)).
  { split; [|exact ST]. apply WF_intro; [apply strict_sorted, ST|refine (Forall_impl _ _ F); intros x Hx; cbv beta in Hx; lia|exists p; exact P]. }
  assert (X : UnicodeSet.eq l (bounds ks) = true).
  { apply canon_eq; [apply clean_Canon, CL|exact CB|]. intros c Hc. rewrite (S c) by (unfold is_cp, HIGH in *; lia). rewrite contains_par by (try apply CB; lia). f_equal. rewrite R by lia.
    unfold s_union, s_empty, among. cbn [orb]. unfold ks, kept. clear. induction rs as [|[[a b] v] rs IH]; [reflexivity|]. cbn [existsb filter]. destruct (veq w v).
    - cbn [map fst existsb]. rewrite IH, andb_true_r. reflexivity.
    - rewrite IH, andb_false_r. reflexivity. }
  apply eq_sound in X. subst l. rewrite getRanges_pairs, Q. reflexivity.
Qed.
Print Assumptions C124_ranges.

(** ** The tries *)
Lemma tiles_in {V} (rs : list (Z * Z * V)) hi : forall lo, tiles lo rs hi -> lo <= hi /\ (forall a b v, In (a, b, v) rs -> lo <= a < b /\ b <= hi) /\ (forall c, lo <= c < hi -> exists a b v, In (a, b, v) rs /\ a <= c < b).
Proof.
  induction rs as [|[[a b] v] rs IH]; intros lo T; cbn [tiles] in T; [split; [lia|split; [intros a b v []|lia]]|]. destruct T as (-> & AB & T). destruct (IH b T) as (L & I & J).
  split; [lia|]. split.
  - intros x y z [E|K]; [injection E as <- <- <-; lia|specialize (I x y z K); lia].
  - intros c Hc. destruct (Z_lt_le_dec c b) as [M|M]; [exists lo, b, v; split; [left; reflexivity|lia]|]. destruct (J c ltac:(lia)) as (x & y & z & K & R). exists x, y, z. split; [right; exact K|exact R].
Qed.
Lemma collect_agrees {V} (veq : V -> V -> bool) (holds : Z -> V -> Prop) start rs limit w : (forall x y, veq x y = true <-> x = y) -> 0 <= start -> limit <= 0x110000 -> partition start rs limit ->
  (forall a b v x, In (a, b, v) rs -> a <= x < b -> holds x v) -> (forall x v v', holds x v -> holds x v' -> v = v') ->
  exists l, collect (veq w) rs new_empty = Ok l /\ forall c, is_cp c -> (contains l c = Ok true <-> start <= c < limit /\ holds c w).
Proof.
  intros VE SH LH [T _] AG FN. destruct (tiles_in rs limit start T) as (_ & I & J).
  destruct (C124_collect V (veq w) rs) as (l & E & _ & K); [intros a b v M; specialize (I a b v M); lia|]. exists l. split; [exact E|]. intros c Hc. destruct (K c Hc) as (x & Q & X). rewrite Q. split.
  - intros Y. assert (x = true) by congruence. apply X in H as (a & b & v & M & R & W). apply VE in W. subst v. specialize (I a b w M). split; [lia|exact (AG a b w c M R)].
  - intros [R H]. destruct (J c R) as (a & b & v & M & Rc). f_equal. apply X. exists a, b, v. split; [exact M|]. split; [exact Rc|]. apply VE. exact (FN c w v H (AG a b v c M Rc)).
Qed.
(** *** The set collected from a UTrie2 has exactly the code points with the value, under the condition of C26
    for the enumeration; from a CPTrie, under that of C28. *)
Theorem C124_utrie2 : forall V (veq : V -> V -> bool) vf t start limit rs w,
  (forall a b, veq a b = true <-> a = b) -> nulls_ok t -> 0 <= start < limit -> (limit <= 0xD800 \/ 0xE000 <= start /\ limit <= 0x10000) -> start mod 32 = 0 ->
  limit <= 32 * index2NullOffset t \/ index2NullOffset t < 0 -> limit <= highStart t -> UTrie2EnumMany.clean vf t limit start ->
  enumerator veq vf t limit start = Ok rs ->
  exists l, collect (veq w) rs new_empty = Ok l /\ forall c, is_cp c -> (contains l c = Ok true <-> start <= c < limit /\ exists x, get t c = Ok x /\ vf x = w).
Proof.
  intros V veq vf t start limit rs w VE N B L A I H CL E. destruct (C26_exact V veq vf t start limit rs VE N B L A I H E) as [P AG].
  apply (collect_agrees veq (fun c v => exists x, get t c = Ok x /\ vf x = v)); [exact VE|lia|lia|exact P|exact (proj2 AG CL)|]. intros x v v' (y & Y & <-) (z & Z & <-). congruence.
Qed.
Print Assumptions C124_utrie2.
Theorem C124_cptrie : forall t start limit fuel w, low_ok t -> 0 <= start < limit -> limit <= 0x1000 -> limit <= cp_highStart t -> (2 <= fuel)%nat ->
  exists rs l, cpenum t fuel start limit = Ok rs /\ collect (Z.eqb w) rs new_empty = Ok l /\ forall c, is_cp c -> (contains l c = Ok true <-> start <= c < limit /\ cpget t c = Ok w).
Proof.
  intros t start limit fuel w K S L H F. destruct (C28_enumeration_partial t start limit fuel K S L H F) as (rs & E & P & AG). exists rs.
  destruct (collect_agrees Z.eqb (fun c v => cpget t c = Ok v) start rs limit w) as (l & C & X); [exact Z.eqb_eq|lia|lia|exact P|exact AG|congruence|]. exists l. split; [exact E|]. split; [exact C|exact X].
Qed.
Print Assumptions C124_cptrie.

(** ** General categories *)
(** *** The set collected for a general category from the enumeration of the shipped data: outside the listed code
    points, its members are the characters of this category; of a listed code point it is wrong (C89). *)
Theorem C124_category : exists en, enumerator Z.eqb generalCategoryFromProps (propsTrie icu) 0x110000 0 = Ok en /\
  forall w, exists l, collect (Z.eqb w) en new_empty = Ok l /\ forall c, is_cp c ->
    (~ listed category_wrong c -> (contains l c = Ok true <-> getGeneralCategory icu c = Ok w)) /\
    (listed category_wrong c -> ~ (contains l c = Ok true /\ getGeneralCategory icu c = Ok w)).
Proof.
  destruct category_enumeration as (en & E & P & K). exists en. split; [exact E|]. intros w. pose proof P as [T _]. destruct (tiles_in en 0x110000 0 T) as (_ & I & J).
  destruct (C124_collect Z (Z.eqb w) en) as (l & C & _ & X); [intros a b v M; specialize (I a b v M); lia|]. exists l. split; [exact C|]. intros c Hc.
  destruct (K c Hc) as (a & b & v & M & R & G). destruct (X c Hc) as (x & Q & Y). rewrite Q.
  assert (U : forall a' b' v', In (a', b', v') en -> a' <= c < b' -> v' = v).
  { clear - T M R. revert T M. generalize 0 as lo. induction en as [|[[x y] z] en IH]; intros lo T M a' b' v' M' R'; [destruct M|]. cbn [tiles] in T. destruct T as (-> & XY & T). pose proof (tiles_in en _ y T) as (_ & I & _).
    destruct M as [M|M], M' as [M'|M']; [congruence| | |exact (IH y T M a' b' v' M' R')].
    - injection M as <- <- <-. specialize (I a' b' v' M'). lia.
    - injection M' as <- <- <-. specialize (I a b v M). lia. }
  assert (V : x = true <-> v = w).
  { rewrite Y. split; [intros (a' & b' & v' & M' & R' & W); apply Z.eqb_eq in W; subst v'; symmetry; exact (U a' b' w M' R')|]. intros <-. exists a, b, v. split; [exact M|]. split; [exact R|apply Z.eqb_refl]. }
  split.
  - intros NL. apply G in NL. rewrite NL. split; [intros Z; f_equal; apply V; congruence|intros Z; f_equal; apply V; congruence].
  - intros LI [Z W]. assert (v = w) by (apply V; congruence). subst v. apply (proj1 G W). exact LI.
Qed.
Print Assumptions C124_category.
Example C124_case : partition 0 [(0, 3, 7); (3, 5, 8); (5, 9, 7); (9, 0x110000, 0)] 0x110000 /\
  (let* l := collect (Z.eqb 7) [(0, 3, 7); (3, 5, 8); (5, 9, 7); (9, 0x110000, 0)] new_empty in getRanges l) = Ok [(0, 3); (5, 9)] /\
  collect (Z.eqb 0) [(0, 3, 7); (3, 5, 8); (5, 9, 7); (9, 0x110000, 0)] new_empty = Ok [9; 0x110000] /\
  collect (fun v => 7 <=? v) [(0, 3, 7); (3, 5, 8); (5, 9, 7); (9, 0x110000, 0)] new_empty = Ok [0; 9; 0x110000].
Proof. split; [|vm_compute; repeat split; reflexivity]. split; [cbn [tiles]; repeat split; reflexivity|cbn [changes]; repeat split; discriminate]. Qed.
Example C124_cptrie_case : exists rs, cpenum t28 2 0x70 0x300 = Ok rs /\ (let* l := collect (Z.eqb 3) rs new_empty in getRanges l) = Ok [(0x296, 0x2C8)].
Proof. eexists. split; [exact C28_case|]. vm_compute. reflexivity. Qed.
Example C124_utrie2_case : exists rs l, enumerator Z.eqb (fun v => v) (many_trie (fun _ => 3)) 0x1020 0 = Ok rs /\ collect (Z.eqb 1) rs new_empty = Ok l /\
  forall c, is_cp c -> (contains l c = Ok true <-> 0 <= c < 0x1020 /\ exists x, get (many_trie (fun _ => 3)) c = Ok x /\ x = 1).
Proof.
  destruct C26_exact_case as [(N & rs & E & C) _]. exists rs.
  destruct (C124_utrie2 Z Z.eqb (fun v => v) (many_trie (fun _ => 3)) 0 0x1020 rs 1 Z.eqb_eq N) as (l & L & X); try lia; [left; vm_compute; discriminate|vm_compute; discriminate|exact C|exact E|].
  exists l. split; [exact E|]. split; [exact L|exact X].
Qed.
Example C124_category_case : exists en l, enumerator Z.eqb generalCategoryFromProps (propsTrie icu) 0x110000 0 = Ok en /\ collect (Z.eqb 1) en new_empty = Ok l /\
  contains l 0x41 = Ok true /\ getGeneralCategory icu 0x1000 = Ok 5 /\ listed category_wrong 0x1000.
Proof.
  destruct C124_category as (en & E & K). destruct (K 1) as (l & L & X). exists en, l. destruct C89_case as (W & N & _).
  split; [exact E|]. split; [exact L|]. split; [apply (X 0x41); [unfold is_cp; lia|exact N|vm_compute; reflexivity]|]. split; [vm_compute; reflexivity|exact W].
Qed.
