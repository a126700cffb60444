(** * C127, continued: sizes of the sets collected from an enumeration *)
From Coq Require Import ZArith List Bool Lia ZifyBool.
From Verif Require Import Py UnicodeSet SpecSet UnicodeSetReach UnicodeSetLaws UTrie2 UTrie2Enum CharProps CharShipped EnumShipped Prop_UnicodeSet Prop_Collect Prop_Counting.
Import ListNotations.
Open Scope Z_scope.
Local Notation clean := UnicodeSetReach.clean.
Local Notation tiles := UTrie2Enum.tiles.

Definition sum (l : list Z) : Z := fold_right Z.add 0 l.
(** the lengths of the ranges that are kept *)
Definition total {V} (keep : V -> bool) (rs : list (Z * Z * V)) : Z := sum (map (fun '(a, b, v) => b - a) (filter (fun '(_, v) => keep v) rs)).
Lemma span_lists a b : 0 <= a <= b -> b <= 0x110000 -> exists l, lists l (fun c => (a <=? c) && (c <? b)) /\ Z.of_nat (length l) = b - a.
Proof.
  intros A B. exists (map (fun k => a + Z.of_nat k) (seq 0 (Z.to_nat (b - a)))). split; [|rewrite map_length, seq_length; lia].
  split; [apply FinFun.Injective_map_NoDup; [intros x y E; lia|apply seq_NoDup]|]. intros c. rewrite in_map_iff. split.
  - intros (k & <- & I). apply in_seq in I. unfold is_cp. lia.
  - intros [H Q]. exists (Z.to_nat (c - a)). split; [lia|apply in_seq; lia].
Qed.
Lemma join_lists l m s t : lists l s -> lists m t -> (forall c, is_cp c -> s c && t c = false) -> lists (l ++ m) (s_union s t).
Proof.
  intros [N I] [N' I'] D. split.
  - assert (X : forall c, In c l -> ~ In c m) by (intros c J J'; apply I in J as [H J]; apply I' in J' as [_ J']; specialize (D c H); rewrite J, J' in D; discriminate).
    clear - N N' X. induction N as [|x l NI N IH]; [exact N'|]. cbn [app]. constructor; [|apply IH; intros c J; apply X; right; exact J].
    intros J. apply in_app_or in J as [J|J]; [exact (NI J)|exact (X x (or_introl eq_refl) J)].
  - intros c. rewrite in_app_iff, I, I'. unfold s_union. destruct (s c), (t c); cbn; intuition discriminate.
Qed.
Lemma among_lists {V} (keep : V -> bool) rs : forall lo hi, tiles lo rs hi -> 0 <= lo -> hi <= 0x110000 -> exists l, lists l (among keep rs) /\ Z.of_nat (length l) = total keep rs.
Proof.
  induction rs as [|[[a b] v] rs IH]; intros lo hi T L H.
  - exists []. split; [|reflexivity]. split; [constructor|]. intros c. split; [intros []|intros [_ Q]; discriminate].
  - cbn [UTrie2Enum.tiles] in T. destruct T as (-> & AB & T). destruct (tiles_in rs hi b T) as (BH & IN & _). destruct (IH b hi T ltac:(lia) H) as (l & L1 & L2). unfold total. cbn [filter]. destruct (keep v) eqn:K.
    + destruct (span_lists lo b) as (m & M1 & M2); [lia|lia|]. exists (m ++ l). split; [|rewrite app_length, Nat2Z.inj_add, M2, L2; reflexivity].
      refine (lists_ext _ _ _ _ (join_lists _ _ _ _ M1 L1 _)).
      * intros c _. unfold s_union, among. cbn [existsb]. rewrite K, andb_true_r. reflexivity.
      * intros c _. destruct (among keep rs c) eqn:Q; [|apply andb_false_r]. apply among_in in Q as (x & y & w & J & R & _). specialize (IN x y w J). lia.
    + exists l. split; [|exact L2]. refine (lists_ext _ _ _ _ L1). intros c _. unfold among. cbn [existsb]. rewrite K, andb_false_r. reflexivity.
Qed.
Lemma collected {V} (keep : V -> bool) start rs hi : 0 <= start -> hi <= 0x110000 -> tiles start rs hi -> exists l, collect keep rs new_empty = Ok l /\ clean l /\ is_set l (among keep rs) /\ size l = Ok (total keep rs).
Proof.
  intros S H T. destruct (tiles_in rs hi start T) as (_ & IN & _).
  destruct (collect_from keep rs) with (l := new_empty) (s := s_empty) as (l & E & C & I); [intros a b v J; specialize (IN a b v J); lia|exact c_new|exact empty_set|].
  exists l. split; [exact E|]. split; [exact C|]. assert (I' : is_set l (among keep rs)) by (intros c Hc; rewrite (I c Hc); reflexivity). split; [exact I'|].
  destruct (size_lists l _ (clean_built l C) I') as (m & M & ->). destruct (among_lists keep rs start hi T S H) as (m' & M' & <-). rewrite (lists_length _ _ _ M M'). reflexivity.
Qed.
(** *** The size of a collected set is the sum of the lengths of the ranges it was collected from. *)
Theorem C127_collected : forall V (keep : V -> bool) start rs hi, 0 <= start -> hi <= 0x110000 -> partition start rs hi ->
  exists l, collect keep rs new_empty = Ok l /\ size l = Ok (sum (map (fun '(a, b, v) => b - a) (filter (fun '(_, v) => keep v) rs))).
Proof. intros V keep start rs hi S H [T _]. destruct (collected keep start rs hi S H T) as (l & E & _ & _ & Z). exists l. split; [exact E|exact Z]. Qed.
Print Assumptions C127_collected.

Lemma total_all {V} (rs : list (Z * Z * V)) : forall lo hi, tiles lo rs hi -> sum (map (fun '(a, b, v) => b - a) rs) = hi - lo.
Proof. induction rs as [|[[a b] v] rs IH]; intros lo hi T; cbn [UTrie2Enum.tiles] in T; cbn; [lia|]. destruct T as (-> & _ & T). change (b - lo + sum (map (fun '(a, b, _) => b - a) rs) = hi - lo). rewrite (IH b hi T). lia. Qed.
Lemma total_by {V} (veq : V -> V -> bool) (VE : forall x y, veq x y = true <-> x = y) vs : NoDup vs -> forall rs : list (Z * Z * V), (forall a b v, In (a, b, v) rs -> In v vs) ->
  sum (map (fun v => total (veq v) rs) vs) = sum (map (fun '(a, b, v) => b - a) rs).
Proof.
  intros N. induction rs as [|[[a b] v] rs IH]; intros I.
  - cbn [map sum fold_right]. clear. induction vs as [|x vs IH]; cbn; [reflexivity|]. unfold total, sum in *. cbn in *. lia.
  - specialize (IH (fun x y w J => I x y w (or_intror J))). specialize (I a b v (or_introl eq_refl)).
    assert (E : forall w, total (veq w) ((a, b, v) :: rs) = (if veq w v then b - a else 0) + total (veq w) rs) by (intros w; unfold total; cbn [filter]; destruct (veq w v); reflexivity).
    change (sum (map (fun v0 => total (veq v0) ((a, b, v) :: rs)) vs) = (b - a) + sum (map (fun '(a, b, _) => b - a) rs)). rewrite <- IH. clear IH.
    assert (K : forall ws, NoDup ws -> sum (map (fun w => total (veq w) ((a, b, v) :: rs)) ws) = (if existsb (fun w => veq w v) ws then b - a else 0) + sum (map (fun w => total (veq w) rs) ws)).
    { induction ws as [|w ws IH]; intros D; cbn [map existsb]; [reflexivity|]. apply NoDup_cons_iff in D as [D1 D]. specialize (IH D). cbn [sum fold_right] in *. fold (sum (map (fun w => total (veq w) ((a, b, v) :: rs)) ws)). fold (sum (map (fun w => total (veq w) rs) ws)). rewrite IH, E.
      destruct (veq w v) eqn:Q; cbn [orb]; [|lia]. apply VE in Q. subst w. replace (existsb (fun w => veq w v) ws) with false; [lia|]. symmetry. apply not_true_iff_false. intros X. apply existsb_exists in X as (w & J & Q). apply VE in Q. subst w. exact (D1 J). }
    rewrite (K vs N). replace (existsb (fun w => veq w v) vs) with true; [reflexivity|]. symmetry. apply existsb_exists. exists v. split; [exact I|apply VE; reflexivity].
Qed.
(** *** The sets for the different values of an enumeration have no code point in common, and their sizes add up. *)
Theorem C127_partition : forall V (veq : V -> V -> bool) start rs hi vs, (forall x y, veq x y = true <-> x = y) -> 0 <= start -> hi <= 0x110000 -> partition start rs hi ->
  NoDup vs -> (forall a b v, In (a, b, v) rs -> In v vs) ->
  (exists ns, Forall2 (fun v n => exists l, collect (veq v) rs new_empty = Ok l /\ size l = Ok n) vs ns /\ sum ns = hi - start) /\
  (forall v w l m, v <> w -> collect (veq v) rs new_empty = Ok l -> collect (veq w) rs new_empty = Ok m -> exists i, intersection l m = Ok i /\ size i = Ok 0).
Proof.
  intros V veq start rs hi vs VE S H [T _] N I. split.
  - exists (map (fun v => total (veq v) rs) vs). split; [|rewrite (total_by veq VE vs N rs I); apply total_all, T].
    clear N I. induction vs as [|v vs IH]; cbn [map]; constructor; [|exact IH]. destruct (collected (veq v) start rs hi S H T) as (l & E & _ & _ & Z). exists l. split; [exact E|exact Z].
  - intros v w l m D E F. destruct (collected (veq v) start rs hi S H T) as (l' & E' & CL & IL & _), (collected (veq w) start rs hi S H T) as (m' & F' & CM & IM & _).
    assert (l' = l) by congruence. assert (m' = m) by congruence. subst l' m'.
    destruct (C02_intersection l m _ _ (clean_built l CL) (clean_built m CM) IL IM) as [_ (i & Q & BI & SI)]. exists i. split; [exact Q|].
    destruct (size_lists i _ BI SI) as (k & [_ K] & ->). destruct k as [|c k]; [reflexivity|]. exfalso. destruct (proj1 (K c) (or_introl eq_refl)) as [_ X]. unfold s_inter in X. apply andb_true_iff in X as [X Y].
    apply among_in in X as (a & b & x & X1 & X2 & X3), Y as (a' & b' & y & Y1 & Y2 & Y3). apply VE in X3, Y3. subst x y. apply D.
    clear - T X1 X2 Y1 Y2. revert T X1 Y1. generalize start as lo. induction rs as [|[[p q] z] rs IH]; intros lo T X1 Y1; [destruct X1|]. cbn [UTrie2Enum.tiles] in T. destruct T as (-> & XY & T). pose proof (tiles_in rs _ q T) as (_ & J & _).
    destruct X1 as [X1|X1], Y1 as [Y1|Y1]; [congruence| | |exact (IH q T X1 Y1)].
    + injection X1 as <- <- <-. specialize (J a' b' w Y1). lia.
    + injection Y1 as <- <- <-. specialize (J a b v X1). lia.
Qed.
Print Assumptions C127_partition.
(** *** For the shipped general categories: the sizes of the sets add up to 0x110000. *)
Theorem C127_category : exists en, enumerator Z.eqb generalCategoryFromProps (propsTrie icu) 0x110000 0 = Ok en /\
  forall vs, NoDup vs -> (forall a b v, In (a, b, v) en -> In v vs) ->
  exists ns, Forall2 (fun v n => exists l, collect (Z.eqb v) en new_empty = Ok l /\ size l = Ok n) vs ns /\ sum ns = 0x110000.
Proof.
  destruct category_enumeration as (en & E & P & _). exists en. split; [exact E|]. intros vs N I.
  destruct (C127_partition Z Z.eqb 0 en 0x110000 vs Z.eqb_eq ltac:(lia) ltac:(lia) P N I) as [(ns & F & S) _]. exists ns. split; [exact F|]. rewrite S. apply Z.sub_0_r.
Qed.
Print Assumptions C127_category.
Example C127_partition_case : partition 0 [(0, 3, 7); (3, 5, 8); (5, 9, 7); (9, 0x110000, 0)] 0x110000 /\ NoDup [0; 7; 8] /\
  (let* l := collect (Z.eqb 7) [(0, 3, 7); (3, 5, 8); (5, 9, 7); (9, 0x110000, 0)] new_empty in size l) = Ok 7 /\
  (let* l := collect (Z.eqb 0) [(0, 3, 7); (3, 5, 8); (5, 9, 7); (9, 0x110000, 0)] new_empty in size l) = Ok 0x10FFF7.
Proof. split; [exact (proj1 C124_case)|]. split; [repeat constructor; cbn; intuition discriminate|]. split; vm_compute; reflexivity. Qed.
