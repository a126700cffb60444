(** * What a failed read of the UCD file leaves behind (C112)

    [read] of UCDIndex.v drops the state when an element cannot be read. Here it is kept: the characters
    are stored in the class one by one, and nothing takes them out again. *)
From Coq Require Import ZArith List Bool Lia String.
From Verif Require Import Py PyStr Dict UnicodeSet SpecSet UnicodeSetViews UnicodeSetReach UnicodeSetLaws CharProps CharNames UCD UCDIndex UCDIndexFacts Prop_UCD Prop_Search.
Import ListNotations.
Open Scope string_scope. Open Scope list_scope. Open Scope Z_scope.
Local Notation length := List.length.

(** UnicodeCharacterData.py:90-97: the characters stored, and the exception that ended the loop *)
Fixpoint keepGroup (d : characters) (group : element) (chars : list element) : characters * option exn :=
  match chars with
  | [] => (d, None)
  | char :: rest =>
      match dict_find char (lit "cp") with
      | None => keepGroup d group rest
      | Some _ => match newCharacterData char group with Ok data => keepGroup (zd_set d (codePoint data) data) group rest | Err e => (d, Some e) end
      end
  end.
Fixpoint keepGroups (d : characters) (groups : list (element * list element)) : characters * option exn :=
  match groups with
  | [] => (d, None)
  | (group, chars) :: rest => match keepGroup d group chars with (d, None) => keepGroups d rest | (d, Some e) => (d, Some e) end
  end.
(** UnicodeCharacterData.py:117-146.  The last case, an exception while the indexes are filled, does not occur ([C112_indexes]). *)
Definition readKeeps (groups : list (element * list element)) (st : characters * index) : (characters * index) * option exn :=
  match (if zlen (fst st) >? 0 then (fst st, None) else keepGroups (fst st) groups) with
  | (d, Some e) => ((d, snd st), Some e)
  | (d, None) => match readAll (snd st) d with Ok x => ((d, x), None) | Err e => ((d, snd st), Some e) end
  end.

(** the two models agree on success *)
Notation new := (fun e : element * element => newCharacterData (fst e) (snd e)).
Definition kept (l : list (element * element)) (d : characters) : characters * option exn :=
  fold_left (fun s e => match s with (d, None) => match new e with Ok a => (store d a, None) | Err x => (d, Some x) end | s => s end) l (d, None).
Lemma stuck l d e : fold_left (fun s e => match s with (d, None) => match new e with Ok a => (store d a, None) | Err x => (d, Some x) end | s => s end) l (d, Some e) = (d, Some e).
Proof. induction l; [reflexivity|]. exact IHl. Qed.
Lemma keepGroup_kept g cs : forall d, keepGroup d g cs = kept (map (fun char => (char, g)) (filter (fun char => match dict_find char (lit "cp") with Some _ => true | None => false end) cs)) d.
Proof.
  induction cs as [|c r IH]; intros d; cbn [keepGroup filter]; [reflexivity|]. destruct (dict_find c (lit "cp")); [|apply IH].
  cbn [map]. unfold kept. cbn [fold_left fst snd]. destruct (newCharacterData c g) as [a|e]; [apply IH|symmetry; apply stuck].
Qed.
Lemma keepGroups_kept groups : forall d, keepGroups d groups = kept (entries groups) d.
Proof.
  induction groups as [|[g cs] r IH]; intros d; cbn [keepGroups]; [reflexivity|].
  assert (entries ((g, cs) :: r) = map (fun char => (char, g)) (filter (fun char => match dict_find char (lit "cp") with Some _ => true | None => false end) cs) ++ entries r) as -> by reflexivity.
  unfold kept. rewrite fold_left_app. rewrite keepGroup_kept. unfold kept.
  destruct (fold_left _ (map _ _) (d, None)) as [d' [e|]]; [symmetry; apply stuck|apply IH].
Qed.
Lemma kept_good l : forall ds d, mapM new l = Ok ds -> kept l d = (fold_left store ds d, None).
Proof.
  induction l as [|e r IH]; intros ds d H; cbn [mapM] in H.
  - assert (ds = []) as -> by congruence. reflexivity.
  - unfold kept. cbn [fold_left]. destruct (new e) as [a|x]; [|discriminate]. cbn [bind] in H. destruct (mapM new r) as [es|x]; [|discriminate]. cbn [bind] in H.
    assert (ds = a :: es) as -> by congruence. exact (IH es (store d a) eq_refl).
Qed.
Lemma kept_bad good bad rest ds e : mapM new good = Ok ds -> new bad = Err e -> forall d, kept (good ++ bad :: rest) d = (fold_left store ds d, Some e).
Proof.
  intros G B d. unfold kept. rewrite fold_left_app. assert (K := kept_good good ds d G). unfold kept in K. rewrite K. cbn [fold_left]. rewrite B. apply stuck.
Qed.
Theorem C112_same : forall groups d x, read groups ([], emptyIndex) = Ok (d, x) -> readKeeps groups ([], emptyIndex) = ((d, x), None).
Proof.
  intros groups d x. unfold read, readKeeps, populateCharacterData. cbn [fst snd]. change (zlen (@nil (Z * characterData)) >? 0) with false. cbv iota.
  rewrite populateGroups_ok, keepGroups_kept. destruct (mapM new (entries groups)) as [ds|e] eqn:E; cbn [bind]; [|discriminate].
  rewrite (kept_good _ _ [] E). intros H. destruct (readAll emptyIndex (fold_left store ds [])) as [y|]; [|discriminate]. cbn [bind] in H.
  assert (fold_left store ds [] = d /\ y = x) as [-> ->] by (split; congruence). reflexivity.
Qed.
Print Assumptions C112_same.

(** Filling the indexes cannot fail, whatever code points the file has: an exception of [read] comes from an element that cannot be read. *)
Definition full (d : propertyList) : Prop := forall key s, dict_find d key = Some s -> s <> [].
Record allFull (x : index) : Prop := { fl_sc : full (scriptList x); fl_gc : full (generalCategories x); fl_bc : full (bidiClasses x);
  fl_bpt : full (bidiPairedBracketTypes x); fl_nt : full (numericTypes x); fl_blk : full (blockList x) }.
Lemma addCode_full d key c : full d -> exists d', addCodePointForKey d key c = Ok d' /\ full d'.
Proof.
  intros F. unfold addCodePointForKey. destruct (pl_get d key) as [d0 s] eqn:E.
  assert (s <> [] /\ forall k, str_eqb key k = false -> dict_find d0 k = dict_find d k) as [N K].
  { unfold pl_get in E. destruct (dict_find d key) as [t|] eqn:Q; injection E as <- <-; [split; [exact (F key t Q)|reflexivity]|]. split; [discriminate|].
    intros k H. rewrite find_set, H. reflexivity. }
  destruct (add_any s c N) as (s' & A & N' & _). rewrite A. cbn [bind]. eexists. split; [reflexivity|]. intros k t H. rewrite find_set in H.
  destruct (str_eqb key k) eqn:Q; [assert (t = s') as -> by congruence; exact N'|]. rewrite (K k Q) in H. exact (F k t H).
Qed.
Lemma readOne_full x a : allFull x -> exists x', readOne x a = Ok x' /\ allFull x'.
Proof.
  intros [K1 K2 K3 K4 K5 K6]. unfold readOne. cbv zeta.
  destruct (addCode_full _ (generalCategory a) (codePoint a) K2) as (gc & -> & L2). cbn [bind].
  destruct (addCode_full _ (bidiClass (bidi a)) (codePoint a) K3) as (bc & -> & L3). cbn [bind].
  destruct (addCode_full _ (bidiPairedBracketType (bidi a)) (codePoint a) K4) as (bpt & -> & L4). cbn [bind].
  assert (N : exists nt, (if str_eqb (numericType a) (lit "None") then Ok (numericTypes x) else addCodePointForKey (numericTypes x) (numericType a) (codePoint a)) = Ok nt /\ full nt).
  { destruct (str_eqb (numericType a) (lit "None")); [exists (numericTypes x); split; [reflexivity|exact K5]|]. exact (addCode_full _ _ _ K5). }
  destruct N as (nt & -> & L5). cbn [bind].
  destruct (addCode_full _ (script a) (codePoint a) K1) as (sc & -> & L1). cbn [bind].
  destruct (addCode_full _ (block a) (codePoint a) K6) as (blk & -> & L6). cbn [bind].
  eexists. split; [reflexivity|]. constructor; cbn; assumption.
Qed.
Lemma readAll_full d : forall x, allFull x -> exists x', readAll x d = Ok x' /\ allFull x'.
Proof.
  induction d as [|[k a] r IH]; intros x F; cbn [readAll]; [exists x; auto|]. destruct (readOne_full x a F) as (x1 & -> & F1). cbn [bind]. exact (IH x1 F1).
Qed.
(** any number of calls, each with the file as it is then: the state after them, and what the last one raised *)
Definition reads (files : list (list (element * list element))) : (characters * index) * option exn :=
  fold_left (fun st groups => readKeeps groups (fst st)) files (([], emptyIndex), None).
Theorem C112_indexes : forall files groups, let st := fst (reads files) in
  snd (readKeeps groups st) = (if zlen (fst st) >? 0 then None else snd (keepGroups (fst st) groups)) /\
  (forall e, snd (readKeeps groups st) = Some e -> fst st = [] /\ exists good bad rest ds, entries groups = good ++ bad :: rest /\ mapM new good = Ok ds /\ new bad = Err e).
Proof.
  assert (F : forall files st, allFull (snd (fst st)) -> allFull (snd (fst (fold_left (fun st groups => readKeeps groups (fst st)) files st)))).
  { induction files as [|g r IH]; intros st H; [exact H|]. cbn [fold_left]. apply IH. unfold readKeeps.
    destruct (if zlen (fst (fst st)) >? 0 then (fst (fst st), None) else keepGroups (fst (fst st)) g) as [d [e|]]; [exact H|].
    destruct (readAll_full d _ H) as (x' & -> & G). exact G. }
  intros files groups. cbv zeta. assert (G : allFull (snd (fst (reads files)))) by (apply F; constructor; intros k s Q; discriminate Q).
  destruct (fst (reads files)) as [d0 x0]. cbn [fst snd] in *.
  assert (S : snd (readKeeps groups (d0, x0)) = (if zlen d0 >? 0 then None else snd (keepGroups d0 groups))).
  { unfold readKeeps. cbn [fst snd]. destruct (zlen d0 >? 0).
    - destruct (readAll_full d0 x0 G) as (x' & -> & _). reflexivity.
    - destruct (keepGroups d0 groups) as [d [e|]]; [reflexivity|]. destruct (readAll_full d x0 G) as (x' & -> & _). reflexivity. }
  split; [exact S|]. intros e H. rewrite S in H. destruct d0 as [|p q].
  - split; [reflexivity|]. change (zlen (@nil (Z * characterData)) >? 0) with false in H. cbv iota in H. rewrite keepGroups_kept in H.
    revert H. generalize (entries groups). generalize (@nil (Z * characterData)). intros d l. revert d. induction l as [|a r IH]; intros d H; [discriminate H|].
    unfold kept in H. cbn [fold_left] in H. destruct (new a) as [b|x] eqn:Q.
    + destruct (IH _ H) as (good & bad & rest & ds & E & M & B). exists (a :: good), bad, rest, (b :: ds). rewrite E. split; [reflexivity|]. split; [|exact B].
      cbn [mapM]. rewrite Q. cbn [bind]. rewrite M. reflexivity.
    + rewrite stuck in H. cbn [snd] in H. exists [], a, r, []. split; [reflexivity|]. split; [reflexivity|]. congruence.
  - assert (zlen (p :: q) >? 0 = true) as Q by (rewrite zlen_cons; pose proof (zlen_nonneg q); lia). rewrite Q in H. discriminate H.
Qed.
Print Assumptions C112_indexes.

(** When an element cannot be read, the first call raises, and the characters before it stay. If there are any, the next
    call succeeds whatever the file is by then: its answers are those of a file that ends before the bad element. *)
Theorem C112_kept : forall groups good bad rest ds e, entries groups = good ++ bad :: rest -> mapM new good = Ok ds -> new bad = Err e ->
  Forall (fun a => is_cp (codePoint a)) ds ->
  exists d, readKeeps groups ([], emptyIndex) = ((d, emptyIndex), Some e) /\ (forall c, zd_find d c = find (fun a => codePoint a =? c) (rev ds)) /\
    (ds = [] -> d = []) /\
    (ds <> [] -> forall groups', exists x, readKeeps groups' (d, emptyIndex) = ((d, x), None) /\ answers x d).
Proof.
  intros groups good bad rest ds e E G B C. exists (fold_left store ds []).
  assert (Hcp : forall p, In p good -> match dict_find (fst p) (lit "cp") with Some _ => true | None => false end = true).
  { intros p Hp. assert (In p (entries groups)) as I by (rewrite E; apply in_or_app; left; exact Hp). unfold entries in I. apply in_flat_map in I as ([g cs] & _ & I).
    apply in_map_iff in I as (c & <- & I). apply filter_In in I as [_ I]. exact I. }
  set (file := map (fun p : element * element => (snd p, [fst p])) good).
  assert (F : entries file = good).
  { unfold file. clear - Hcp. induction good as [|[c g] r IH]; [reflexivity|]. cbn [map fst snd]. unfold entries. cbn [flat_map fst snd filter].
    assert (H1 := Hcp (c, g) (or_introl eq_refl)). cbn [fst] in H1. rewrite H1. cbn [map app]. f_equal. apply IH. intros p Hp. apply Hcp. right. exact Hp. }
  assert (G' : mapM new (entries file) = Ok ds) by (rewrite F; exact G).
  destruct (read_ok file ds G' C) as (d & x & R & HZ & A & _).
  assert (S := C112_same file d x R). unfold read, populateCharacterData in R. cbn [fst snd] in R. change (zlen (@nil (Z * characterData)) >? 0) with false in R. cbv iota in R.
  rewrite populateGroups_ok, G' in R. cbn [bind] in R. destruct (readAll emptyIndex (fold_left store ds [])) as [y|] eqn:Y; [|discriminate]. cbn [bind] in R.
  assert (fold_left store ds [] = d /\ y = x) as [D ->] by (split; congruence). rewrite D in *.
  split; [|split; [exact HZ|split]].
  - unfold readKeeps. cbn [fst snd]. change (zlen (@nil (Z * characterData)) >? 0) with false. cbv iota. rewrite keepGroups_kept, E, (kept_bad good bad rest ds e G B), D. reflexivity.
  - intros ->. rewrite <- D. reflexivity.
  - intros N groups'. exists x. split; [|exact A]. unfold readKeeps. cbn [fst snd].
    assert (zlen d >? 0 = true) as ->.
    { destruct d as [|p q]; [|rewrite zlen_cons; pose proof (zlen_nonneg q); lia]. exfalso. destruct ds as [|a r]; [congruence|].
      specialize (HZ (codePoint a)). cbn [zd_find] in HZ. destruct (find _ _) eqn:Q; [congruence|].
      assert (In a (rev (a :: r))) as I by (apply in_rev; rewrite rev_involutive; left; reflexivity). assert (H := find_none _ _ Q a I). cbv beta in H. rewrite Z.eqb_refl in H. discriminate. }
    rewrite Y. reflexivity.
Qed.
Print Assumptions C112_kept.

(** So the index can lack characters of the file without any call having said so. *)
Definition broken_file : list (element * list element) :=
  [(latin, [dict_of [("cp", "0041"); ("na", "LATIN CAPITAL LETTER A")]; dict_of [("cp", "0042"); ("ccc", "?")]; dict_of [("cp", "0043")]])].
Theorem C112_retry_refuted : exists groups d x e, readKeeps groups ([], emptyIndex) = ((d, emptyIndex), Some e) /\ readKeeps groups (d, emptyIndex) = ((d, x), None) /\
  exists char data, In (char, latin) (entries groups) /\ newCharacterData char latin = Ok data /\ zd_find d (codePoint data) = None.
Proof.
  exists broken_file. eexists _, _, _. split; [vm_compute; reflexivity|]. split; [vm_compute; reflexivity|].
  exists (dict_of [("cp", "0043")]). eexists. split; [vm_compute; auto|]. split; [vm_compute; reflexivity|]. vm_compute. reflexivity.
Qed.
Print Assumptions C112_retry_refuted.
Example C112_case : match readKeeps broken_file ([], emptyIndex) with
  | ((d, x), r) => map fst d = [0x41] /\ r = Some ValueError /\ map fst (generalCategories (snd (fst (readKeeps sample_file (d, x))))) = [lit "Lu"] end.
Proof. vm_compute. repeat split. Qed.
