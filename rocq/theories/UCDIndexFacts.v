(** * The UCD index: what reading a file leaves in the sets *)
From Coq Require Import ZArith List Bool Lia String ZifyBool.
From Verif Require Import Py PyStr Dict UnicodeSet SpecSet UnicodeSetViews UnicodeSetReach UnicodeSetLaws CharProps CharNames UCD UCDIndex.
Import ListNotations.
Open Scope Z_scope.
Local Notation length := List.length.
Local Notation concat := List.concat.

(** ** Dictionaries with integer keys *)
Lemma zd_find_set {V} (d : list (Z * V)) k v j : zd_find (zd_set d k v) j = if k =? j then Some v else zd_find d j.
Proof.
  induction d as [|[i w] r IH]; cbn [zd_set zd_find]; [destruct (k =? j); reflexivity|].
  destruct (i =? k) eqn:E; cbn [zd_find].
  - assert (i = k) by lia. subst i. destruct (k =? j); reflexivity.
  - destruct (i =? j) eqn:E2; [|exact IH]. destruct (k =? j) eqn:E3; [lia|reflexivity].
Qed.
Lemma zd_set_same {V} (d : list (Z * V)) k v : zd_find d k = Some v -> zd_set d k v = d.
Proof.
  induction d as [|[i w] r IH]; cbn [zd_set zd_find]; [discriminate|]. destruct (i =? k); intros H; [congruence|]. rewrite IH by exact H. reflexivity.
Qed.
Lemma zd_set_keys {V} (d : list (Z * V)) k v : forall j, In j (map fst (zd_set d k v)) <-> j = k \/ In j (map fst d).
Proof.
  intros j. induction d as [|[i w] r IH]; cbn [zd_set map fst In]; [intuition|].
  destruct (i =? k) eqn:E; cbn [map fst In]; [|rewrite IH; intuition].
  assert (i = k) by lia. subst i. intuition.
Qed.
Lemma zd_set_nodup {V} (d : list (Z * V)) k v : NoDup (map fst d) -> NoDup (map fst (zd_set d k v)).
Proof.
  induction d as [|[i w] r IH]; cbn [zd_set map fst]; intros N; [repeat constructor; auto|]. inversion N as [|? ? N1 N2]; subst.
  destruct (i =? k) eqn:E; cbn [map fst]; [exact N|]. constructor; [|apply IH; exact N2]. rewrite zd_set_keys. intros [->|I]; [lia|contradiction].
Qed.
Lemma zd_find_in {V} (d : list (Z * V)) k v : NoDup (map fst d) -> (zd_find d k = Some v <-> In (k, v) d).
Proof.
  induction d as [|[i w] r IH]; cbn [zd_find map fst In]; intros N; [split; [discriminate|contradiction]|]. inversion N as [|? ? N1 N2]; subst.
  destruct (i =? k) eqn:E.
  - assert (i = k) by lia. subst i. split; [intros H; left; congruence|]. intros [H|H]; [congruence|]. exfalso. apply N1. apply (in_map fst) in H. exact H.
  - rewrite (IH N2). split; [auto|]. intros [H|H]; [|exact H]. inversion H. lia.
Qed.
Lemma dict_set_same {V} (d : dict V) k v : dict_find d k = Some v -> dict_set d k v = d.
Proof.
  induction d as [|[i w] r IH]; cbn [dict_set dict_find]; [discriminate|]. destruct (str_eqb i k); intros H; [congruence|]. rewrite IH by exact H. reflexivity.
Qed.

(** ** The members of a set *)
Lemma codePointsInSet_iter l : codePointsInSet l = iter l.
Proof. unfold codePointsInSet, iter. cbv zeta. rewrite py_range_2_even, py_range_2_count. reflexivity. Qed.

(** ** One list of sets *)
(** [d] has for each key the set of the code points paired with it in [rel], and no set for other keys *)
Definition pair_in (rel : list (str * Z)) (key : str) : cpset := fun c => existsb (fun p => str_eqb (fst p) key && (snd p =? c)) rel.
Definition pl_ok (d : propertyList) (rel : list (str * Z)) : Prop :=
  forall key, match dict_find d key with
              | Some s => built s /\ is_set s (pair_in rel key) /\ In key (map fst rel)
              | None => ~ In key (map fst rel)
              end.
Lemma pair_in_spec rel key c : pair_in rel key c = true <-> In (key, c) rel.
Proof.
  unfold pair_in. rewrite existsb_exists. split.
  - intros ([k x] & I & E). cbn [fst snd] in E. apply andb_true_iff in E as [E1 E2]. apply str_eqb_eq in E1. assert (x = c) by lia. subst. exact I.
  - intros I. exists (key, c). split; [exact I|]. cbn [fst snd]. rewrite str_eqb_refl, Z.eqb_refl. reflexivity.
Qed.
Lemma pair_in_none rel key c : ~ In key (map fst rel) -> pair_in rel key c = false.
Proof. intros N. destruct (pair_in rel key c) eqn:E; [|reflexivity]. apply pair_in_spec in E. exfalso. apply N. apply (in_map fst) in E. exact E. Qed.
Lemma pair_in_snoc rel k x key c : pair_in (rel ++ [(k, x)]) key c = pair_in rel key c || (str_eqb k key && (x =? c)).
Proof. unfold pair_in. rewrite existsb_app. cbn. rewrite orb_false_r. reflexivity. Qed.

Lemma new_empty_ok : built new_empty /\ is_set new_empty s_empty.
Proof. split; [constructor|]. intros c H. unfold is_cp in H. unfold contains, findCodePoint, new_empty, HIGH. unfold s_empty.
  unfold is_cp in H. unfold contains, findCodePoint, py_get. cbn.
  destruct (c <? 1114112) eqn:E; [reflexivity|lia]. Qed.

Lemma addCode_ok d rel key c : pl_ok d rel -> is_cp c -> exists d', addCodePointForKey d key c = Ok d' /\ pl_ok d' (rel ++ [(key, c)]).
Proof.
  intros K C. unfold addCodePointForKey. pose proof (K key) as Kk.
  assert (S0 : exists d0 s, pl_get d key = (d0, s) /\ (forall k, str_eqb key k = false -> dict_find d0 k = dict_find d k) /\ built s /\ is_set s (pair_in rel key)).
  { unfold pl_get. destruct (dict_find d key) as [s|]; [exists d, s; intuition|]. eexists _, new_empty. destruct new_empty_ok as [B E].
    split; [reflexivity|]. split; [intros k Q; rewrite find_set, Q; reflexivity|]. split; [exact B|]. intros x Hx. rewrite (E x Hx), pair_in_none by exact Kk. reflexivity. }
  destruct S0 as (d0 & s & E & F & B & I). rewrite E. destruct (add_ok s _ c B I C) as (s' & A & B' & I' & _). rewrite A. cbn [bind].
  eexists. split; [reflexivity|]. intros k. rewrite find_set.
  assert (M : In k (map fst (rel ++ [(key, c)])) <-> In k (map fst rel) \/ key = k) by (rewrite map_app, in_app_iff; cbn [map fst In]; intuition).
  destruct (str_eqb key k) eqn:Q.
  - apply str_eqb_eq in Q. subst k. split; [exact B'|]. split; [|apply M; auto]. intros x Hx. rewrite (I' x Hx), pair_in_snoc, str_eqb_refl.
    unfold s_union, s_single. cbn [andb]. rewrite (Z.eqb_sym x c). reflexivity.
  - assert (key <> k) by (intros ->; rewrite str_eqb_refl in Q; discriminate).
    rewrite (F k Q). specialize (K k). destruct (dict_find d k) as [t|]; [|intuition].
    destruct K as (K1 & K2 & K3). split; [exact K1|]. split; [|apply M; auto]. intros x Hx. rewrite (K2 x Hx), pair_in_snoc, Q. cbn [andb]. rewrite orb_false_r. reflexivity.
Qed.
Lemma addCode_again d rel key c : pl_ok d rel -> is_cp c -> In (key, c) rel -> addCodePointForKey d key c = Ok d.
Proof.
  intros K C I. unfold addCodePointForKey, pl_get. specialize (K key). destruct (dict_find d key) as [s|] eqn:E.
  - destruct K as (B & S & _). rewrite add_present; [|rewrite (S c C); f_equal; apply pair_in_spec; exact I|exact C]. cbn [bind]. rewrite dict_set_same by exact E. reflexivity.
  - exfalso. apply K. apply (in_map fst) in I. exact I.
Qed.
Lemma pl_get_ok d rel key : pl_ok d rel -> forall c, is_cp c -> (contains (snd (pl_get d key)) c = Ok true <-> In (key, c) rel).
Proof.
  intros K c C. rewrite <- pair_in_spec. unfold pl_get. specialize (K key). destruct (dict_find d key) as [s|]; cbn [snd].
  - destruct K as (_ & I & _). rewrite (I c C). split; congruence.
  - destruct new_empty_ok as [_ I]. rewrite (I c C), pair_in_none by exact K. unfold s_empty. split; congruence.
Qed.

(** ** Reading *)
Definition keyed (f : characterData -> str) (ds : list characterData) : list (str * Z) := map (fun x => (f x, codePoint x)) ds.
Definition numeric (ds : list characterData) : list characterData := filter (fun x => negb (str_eqb (numericType x) (lit "None"))) ds.
Record index_ok (x : index) (ds : list characterData) : Prop := {
  ok_sc : pl_ok (scriptList x) (keyed script ds);
  ok_gc : pl_ok (generalCategories x) (keyed generalCategory ds);
  ok_bc : pl_ok (bidiClasses x) (keyed (fun d => bidiClass (bidi d)) ds);
  ok_bpt : pl_ok (bidiPairedBracketTypes x) (keyed (fun d => bidiPairedBracketType (bidi d)) ds);
  ok_nt : pl_ok (numericTypes x) (keyed numericType (numeric ds));
  ok_blk : pl_ok (blockList x) (keyed block ds) }.
Lemma keyed_snoc f ds x : keyed f (ds ++ [x]) = keyed f ds ++ [(f x, codePoint x)].
Proof. unfold keyed. rewrite map_app. reflexivity. Qed.
Lemma empty_pl : pl_ok [] [].
Proof. intros key. cbn. auto. Qed.
Lemma emptyIndex_ok : index_ok emptyIndex [].
Proof. constructor; exact empty_pl. Qed.

Lemma readOne_ok x ds a : index_ok x ds -> is_cp (codePoint a) -> exists x', readOne x a = Ok x' /\ index_ok x' (ds ++ [a]) /\
  decompositions x' = match decomposition (decomp a) with Some s => zd_set (decompositions x) (codePoint a) s | None => decompositions x end.
Proof.
  intros [K1 K2 K3 K4 K5 K6] C. unfold readOne. cbv zeta.
  destruct (addCode_ok _ _ (generalCategory a) _ K2 C) as (gc & -> & L2). cbn [bind].
  destruct (addCode_ok _ _ (bidiClass (bidi a)) _ K3 C) as (bc & -> & L3). cbn [bind].
  destruct (addCode_ok _ _ (bidiPairedBracketType (bidi a)) _ K4 C) as (bpt & -> & L4). cbn [bind].
  assert (N : exists nt, (if str_eqb (numericType a) (lit "None") then Ok (numericTypes x) else addCodePointForKey (numericTypes x) (numericType a) (codePoint a)) = Ok nt /\
    pl_ok nt (keyed numericType (numeric (ds ++ [a])))).
  { unfold numeric. rewrite filter_app. cbn [filter]. destruct (str_eqb (numericType a) (lit "None")); cbn [negb].
    - exists (numericTypes x). rewrite app_nil_r. auto.
    - rewrite keyed_snoc. apply addCode_ok; assumption. }
  destruct N as (nt & -> & L5). cbn [bind].
  destruct (addCode_ok _ _ (script a) _ K1 C) as (sc & -> & L1). cbn [bind].
  destruct (addCode_ok _ _ (block a) _ K6 C) as (blk & -> & L6). cbn [bind].
  eexists. split; [reflexivity|]. split; [|reflexivity]. constructor; cbn; rewrite ?keyed_snoc; assumption.
Qed.
Lemma readAll_ok d : forall x ds, index_ok x ds -> Forall (fun p => is_cp (codePoint (snd p))) d -> exists x', readAll x d = Ok x' /\ index_ok x' (ds ++ map snd d).
Proof.
  induction d as [|[k a] r IH]; intros x ds K F; cbn [readAll map snd].
  - exists x. rewrite app_nil_r. auto.
  - inversion F as [|? ? F1 F2]; subst. cbn [snd] in F1. destruct (readOne_ok x ds a K F1) as (x1 & -> & K1 & _). cbn [bind].
    destruct (IH x1 _ K1 F2) as (x2 & E & K2). exists x2. split; [exact E|]. rewrite <- app_assoc in K2. exact K2.
Qed.
(** the decompositions: by the code points of the data *)
Lemma readAll_decompositions d : forall x x', readAll x d = Ok x' -> NoDup (map fst d) -> Forall (fun p => fst p = codePoint (snd p)) d ->
  (forall c, In c (map fst d) -> zd_find (decompositions x) c = None \/ zd_find (decompositions x) c = match zd_find d c with Some a => decomposition (decomp a) | None => None end) ->
  forall c, zd_find (decompositions x') c = match zd_find d c with Some a => decomposition (decomp a) | None => zd_find (decompositions x) c end.
Proof.
  induction d as [|[k a] r IH]; intros x x' E N F H c; cbn [readAll] in E.
  - injection E as <-. reflexivity.
  - inversion N as [|? ? N1 N2]; subst. inversion F as [|? ? F1 F2]; subst. cbn [fst snd] in F1. subst k.
    destruct (readOne x a) as [x1|] eqn:E1; [|discriminate]. cbn [bind] in E.
    assert (D : decompositions x1 = match decomposition (decomp a) with Some s => zd_set (decompositions x) (codePoint a) s | None => decompositions x end).
    { clear - E1. unfold readOne in E1. cbv zeta in E1. repeat match type of E1 with (let* _ := ?m in _) = _ => destruct m; [cbn [bind] in E1|discriminate] end.
      injection E1 as <-. reflexivity. }
    assert (Z1 : forall c', c' <> codePoint a -> zd_find (decompositions x1) c' = zd_find (decompositions x) c').
    { intros c' Hc. rewrite D. destruct (decomposition (decomp a)); [|reflexivity]. rewrite zd_find_set. replace (codePoint a =? c') with false by lia. reflexivity. }
    rewrite (IH x1 x' E N2 F2).
    + cbn [zd_find]. destruct (codePoint a =? c) eqn:Q.
      * assert (codePoint a = c) by lia. subst c.
        assert (zd_find r (codePoint a) = None) as ->.
        { destruct (zd_find r (codePoint a)) eqn:Z; [|reflexivity]. exfalso. apply N1. apply zd_find_in in Z; [|exact N2]. apply (in_map fst) in Z. exact Z. }
        rewrite D. destruct (decomposition (decomp a)) eqn:Y; [rewrite zd_find_set, Z.eqb_refl; reflexivity|].
        destruct (H (codePoint a)) as [G|G]; [left; reflexivity|exact G|]. cbn [zd_find] in G. rewrite Z.eqb_refl in G. congruence.
      * destruct (zd_find r c); [reflexivity|]. apply Z1. lia.
    + intros c' I. assert (c' <> codePoint a) by (intros ->; contradiction). rewrite Z1 by assumption.
      destruct (H c') as [G|G]; [right; exact I|left; exact G|right]. cbn [zd_find] in G. replace (codePoint a =? c') with false in G by lia. exact G.
Qed.

(** ** Populating *)
(** the elements that are read, with the group each is in *)
Definition entries (groups : list (element * list element)) : list (element * element) :=
  flat_map (fun g => map (fun char => (char, fst g)) (filter (fun char => match dict_find char (lit "cp") with Some _ => true | None => false end) (snd g))) groups.
Definition store (d : characters) (a : characterData) : characters := zd_set d (codePoint a) a.
Lemma mapM_app {A B} (f : A -> res B) a b : mapM f (a ++ b) = let* x := mapM f a in let* y := mapM f b in Ok (x ++ y).
Proof.
  induction a as [|h a IH]; cbn [app mapM bind]; [destruct (mapM f b); reflexivity|]. destruct (f h); [cbn [bind]|reflexivity]. rewrite IH.
  destruct (mapM f a); [cbn [bind]|reflexivity]. destruct (mapM f b); reflexivity.
Qed.
Lemma populateGroup_ok group chars : forall d, populateGroup d group chars =
  let* ds := mapM (fun e => newCharacterData (fst e) (snd e)) (map (fun char => (char, group)) (filter (fun char => match dict_find char (lit "cp") with Some _ => true | None => false end) chars)) in
  Ok (fold_left store ds d).
Proof.
  induction chars as [|char r IH]; intros d; cbn [populateGroup filter]; [reflexivity|]. destruct (dict_find char (lit "cp")); [|apply IH].
  cbn [map mapM fst snd]. destruct (newCharacterData char group) as [a|e]; [cbn [bind]|reflexivity]. rewrite IH.
  destruct (mapM _ _); reflexivity.
Qed.
Lemma populateGroups_ok groups : forall d, populateGroups d groups =
  let* ds := mapM (fun e => newCharacterData (fst e) (snd e)) (entries groups) in Ok (fold_left store ds d).
Proof.
  induction groups as [|[g cs] r IH]; intros d; cbn [populateGroups]; [reflexivity|].
  assert (entries ((g, cs) :: r) = map (fun char => (char, g)) (filter (fun char => match dict_find char (lit "cp") with Some _ => true | None => false end) cs) ++ entries r) as -> by reflexivity.
  rewrite mapM_app, populateGroup_ok.
  match goal with |- (let* _ := (let* _ := ?m in _) in _) = _ => destruct m as [ds|e]; [cbn [bind]|reflexivity] end. rewrite IH.
  match goal with |- (let* _ := ?m in _) = _ => destruct m as [es|e]; [cbn [bind]|reflexivity] end. rewrite fold_left_app. reflexivity.
Qed.
Lemma store_facts ds : forall d, NoDup (map fst d) -> Forall (fun p => fst p = codePoint (snd p)) d ->
  NoDup (map fst (fold_left store ds d)) /\ Forall (fun p => fst p = codePoint (snd p)) (fold_left store ds d) /\
  (forall c, zd_find (fold_left store ds d) c = match find (fun a => codePoint a =? c) (rev ds) with Some a => Some a | None => zd_find d c end).
Proof.
  induction ds as [|a r IH]; intros d N F; cbn [fold_left]; [split; [exact N|]; split; [exact F|reflexivity]|].
  destruct (IH (store d a)) as (N' & F' & Z').
  - apply zd_set_nodup. exact N.
  - clear - F. unfold store. induction F as [|[k v] q H F IH]; cbn [zd_set]; [repeat constructor|]. cbn [fst snd] in H.
    destruct (k =? codePoint a) eqn:E; constructor; cbn [fst snd]; auto. lia.
  - split; [exact N'|]. split; [exact F'|]. intros c. rewrite Z'. cbn [rev].
    assert (A : forall l, find (fun x => codePoint x =? c) (l ++ [a]) = match find (fun x => codePoint x =? c) l with Some b => Some b | None => if codePoint a =? c then Some a else None end).
    { induction l as [|b l IHl]; cbn [app find]; [reflexivity|]. destruct (codePoint b =? c); [reflexivity|exact IHl]. }
    rewrite A. destruct (find _ (rev r)); [reflexivity|]. unfold store. rewrite zd_find_set. destruct (codePoint a =? c); reflexivity.
Qed.

(** ** Reading a file *)
(** what is in the index for the characters [d] *)
Definition answers (x : index) (d : characters) : Prop := forall c, is_cp c -> forall key,
  let has f := exists a, zd_find d c = Some a /\ f a = key in
  (contains (snd (pl_get (scriptList x) key)) c = Ok true <-> has script) /\
  (contains (snd (pl_get (generalCategories x) key)) c = Ok true <-> has generalCategory) /\
  (contains (snd (pl_get (bidiClasses x) key)) c = Ok true <-> has (fun a => bidiClass (bidi a))) /\
  (contains (snd (pl_get (bidiPairedBracketTypes x) key)) c = Ok true <-> has (fun a => bidiPairedBracketType (bidi a))) /\
  (contains (snd (pl_get (numericTypes x) key)) c = Ok true <-> key <> lit "None" /\ has numericType) /\
  (contains (snd (pl_get (blockList x) key)) c = Ok true <-> has block) /\
  zd_find (decompositions x) c = match zd_find d c with Some a => decomposition (decomp a) | None => None end.

Lemma keyed_in f (d : characters) key c : NoDup (map fst d) -> Forall (fun p => fst p = codePoint (snd p)) d ->
  (In (key, c) (keyed f (map snd d)) <-> exists a, zd_find d c = Some a /\ f a = key).
Proof.
  intros N F. unfold keyed. rewrite map_map, in_map_iff. rewrite Forall_forall in F. split.
  - intros ([k a] & E & I). inversion E as [[E1 E2]]. cbn [snd] in *. exists a. split; [|reflexivity]. apply zd_find_in; [exact N|]. specialize (F _ I). cbn in F. subst k. exact I.
  - intros (a & E & <-). apply zd_find_in in E; [|exact N]. exists (c, a). split; [|exact E]. specialize (F _ E). cbn [fst snd] in *. rewrite F. reflexivity.
Qed.
Lemma numeric_in (d : characters) key c : NoDup (map fst d) -> Forall (fun p => fst p = codePoint (snd p)) d ->
  (In (key, c) (keyed numericType (numeric (map snd d))) <-> key <> lit "None" /\ exists a, zd_find d c = Some a /\ numericType a = key).
Proof.
  intros N F. rewrite <- (keyed_in numericType d key c N F). unfold keyed, numeric. rewrite !in_map_iff. split.
  - intros (a & E & I). apply filter_In in I as [I1 I2]. assert (E1 : numericType a = key) by congruence. split; [|eauto].
    intros Q. rewrite E1, Q, str_eqb_refl in I2. discriminate.
  - intros (H & a & E & I). exists a. split; [exact E|]. apply filter_In. split; [exact I|]. assert (E1 : numericType a = key) by congruence. rewrite E1.
    destruct (str_eqb key (lit "None")) eqn:Q; [|reflexivity]. apply str_eqb_eq in Q. contradiction.
Qed.

Lemma again_all d : forall x ds, index_ok x ds -> (forall p, In p d -> In (snd p) ds) -> Forall (fun p => is_cp (codePoint (snd p))) d ->
  (forall p, In p d -> match decomposition (decomp (snd p)) with Some s => zd_find (decompositions x) (codePoint (snd p)) = Some s | None => True end) ->
  readAll x d = Ok x.
Proof.
  induction d as [|[k a] r IH]; intros x ds K I F D; [reflexivity|]. cbn [readAll]. inversion F as [|? ? F1 F2]; subst. cbn [snd] in F1.
  assert (A : In a ds) by (apply (I (k, a)); left; reflexivity).
  assert (G : forall f, In (f a, codePoint a) (keyed f ds)) by (intros f; unfold keyed; apply in_map_iff; exists a; auto).
  assert (E : readOne x a = Ok x).
  { destruct K as [K1 K2 K3 K4 K5 K6]. unfold readOne. cbv zeta.
    rewrite (addCode_again _ _ _ _ K2 F1 (G _)). cbn [bind]. rewrite (addCode_again _ _ _ _ K3 F1 (G _)). cbn [bind].
    rewrite (addCode_again _ _ _ _ K4 F1 (G _)). cbn [bind].
    assert ((if str_eqb (numericType a) (lit "None") then Ok (numericTypes x) else addCodePointForKey (numericTypes x) (numericType a) (codePoint a)) = Ok (numericTypes x)) as ->.
    { destruct (str_eqb (numericType a) (lit "None")) eqn:Q; [reflexivity|]. apply (addCode_again _ _ _ _ K5 F1).
      unfold keyed, numeric. apply in_map_iff. exists a. split; [reflexivity|]. apply filter_In. rewrite Q. auto. }
    cbn [bind]. rewrite (addCode_again _ _ _ _ K1 F1 (G _)). cbn [bind]. rewrite (addCode_again _ _ _ _ K6 F1 (G _)). cbn [bind].
    specialize (D (k, a) (or_introl eq_refl)). cbn [snd] in D. destruct x as [x1 x2 x3 x4 x5 x6 x7]. cbn in *.
    destruct (decomposition (decomp a)); [rewrite zd_set_same by exact D|]; reflexivity. }
  rewrite E. cbn [bind]. apply (IH x ds K); auto; intros p Hp; [apply I|apply D]; right; exact Hp.
Qed.

Lemma read_ok groups ds : mapM (fun e => newCharacterData (fst e) (snd e)) (entries groups) = Ok ds -> Forall (fun a => is_cp (codePoint a)) ds ->
  exists d x, read groups ([], emptyIndex) = Ok (d, x) /\ (forall c, zd_find d c = find (fun a => codePoint a =? c) (rev ds)) /\ answers x d /\
    read groups (d, x) = Ok (d, x).
Proof.
  intros E C. unfold read. cbn [fst snd].
  assert (P : populateCharacterData [] groups = Ok (fold_left store ds [])) by (unfold populateCharacterData; cbn; rewrite populateGroups_ok, E; reflexivity).
  destruct (store_facts ds [] ltac:(constructor) ltac:(constructor)) as (N & F & Z). set (d := fold_left store ds []) in *. rewrite P. cbn [bind].
  assert (V : Forall (fun p => is_cp (codePoint (snd p))) d).
  { apply Forall_forall. intros [c a] I. cbn [snd]. apply zd_find_in in I; [|exact N]. rewrite Z in I. cbn [zd_find] in I.
    destruct (find _ _) as [b|] eqn:Q; [|discriminate]. injection I as ->. apply find_some in Q as [Q _]. rewrite <- in_rev in Q. rewrite Forall_forall in C. auto. }
  destruct (readAll_ok d emptyIndex [] emptyIndex_ok V) as (x & R & K). cbn [app] in K. rewrite R. cbn [bind].
  assert (D : forall c, zd_find (decompositions x) c = match zd_find d c with Some a => decomposition (decomp a) | None => None end).
  { intros c. apply (readAll_decompositions d emptyIndex x R N F). intros c' _. left. reflexivity. }
  exists d, x. split; [reflexivity|]. split; [intros c; rewrite Z; cbn [zd_find]; destruct (find _ _); reflexivity|]. split.
  - destruct K as [K1 K2 K3 K4 K5 K6]. intros c Hc key has.
    split; [rewrite (pl_get_ok _ _ key K1 c Hc); apply keyed_in; assumption|].
    split; [rewrite (pl_get_ok _ _ key K2 c Hc); apply keyed_in; assumption|].
    split; [rewrite (pl_get_ok _ _ key K3 c Hc); apply keyed_in; assumption|].
    split; [rewrite (pl_get_ok _ _ key K4 c Hc); apply keyed_in; assumption|].
    split; [rewrite (pl_get_ok _ _ key K5 c Hc); apply numeric_in; assumption|].
    split; [rewrite (pl_get_ok _ _ key K6 c Hc); apply keyed_in; assumption|]. apply D.
  - assert (P2 : populateCharacterData d groups = Ok d).
    { unfold populateCharacterData. destruct (zlen d >? 0) eqn:L; [reflexivity|]. destruct d as [|p q] eqn:Hd; [|rewrite zlen_cons in L; pose proof (zlen_nonneg q); lia].
      exact P. }
    rewrite P2. cbn [bind]. rewrite (again_all d x (map snd d) K); [reflexivity| |exact V|].
    + intros p Hp. apply in_map. exact Hp.
    + intros [c a] Hp. cbn [snd]. rewrite Forall_forall in F. pose proof (F _ Hp) as Q. cbn [fst snd] in Q. subst c.
      rewrite D. apply zd_find_in in Hp; [|exact N]. rewrite Hp. destruct (decomposition (decomp a)); auto.
Qed.
(** an element that cannot be read stops everything *)
Lemma read_fails groups e : mapM (fun e => newCharacterData (fst e) (snd e)) (entries groups) = Err e -> read groups ([], emptyIndex) = Err e.
Proof. intros E. unfold read, populateCharacterData. cbn. rewrite populateGroups_ok, E. reflexivity. Qed.
