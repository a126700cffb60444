(** * Facts about Build.v *)
From Coq Require Import ZArith List Bool Lia String.
From Verif Require Import Py Dict PyStr Utilities CharNames PyText ModuleBuilder HeaderFile BuilderArgs CsvReader UCDFacts Build.
Import ListNotations.
Open Scope string_scope.
Open Scope list_scope.
Open Scope Z_scope.
Local Notation length := List.length.
Local Notation concat := List.concat.

(** ** Paths *)
Lemma path_eqb_eq p q : path_eqb p q = true <-> p = q.
Proof. unfold path_eqb. destruct (list_eq_dec (list_eq_dec Z.eq_dec) p q); split; congruence. Qed.
Lemma path_eqb_refl p : path_eqb p p = true. Proof. apply path_eqb_eq. reflexivity. Qed.
Lemma path_eqb_neq p q : p <> q -> path_eqb p q = false.
Proof. intros H. destruct (path_eqb p q) eqn:E; [|reflexivity]. apply path_eqb_eq in E. congruence. Qed.
Lemma prefix_iff p : forall q, prefix p q = true <-> exists r, q = p ++ r.
Proof.
  induction p as [|x p IH]; intros q; cbn [prefix]; [split; [exists q; reflexivity|reflexivity]|]. destruct q as [|y q].
  - split; [discriminate|intros (r & E); discriminate].
  - rewrite andb_true_iff, str_eqb_eq, IH. split.
    + intros [-> (r & ->)]. exists r. reflexivity.
    + intros (r & E). injection E as -> ->. split; [reflexivity|exists r; reflexivity].
Qed.
Lemma prefix_refl p : prefix p p = true. Proof. apply prefix_iff. exists []. rewrite app_nil_r. reflexivity. Qed.
Lemma prefix_longer p n : prefix (p ++ [n]) p = false.
Proof. destruct (prefix (p ++ [n]) p) eqn:E; [|reflexivity]. apply prefix_iff in E as (r & E). apply (f_equal (@length _)) in E. rewrite !app_length in E. cbn in E. lia. Qed.
Lemma prefix_sibling p n m : n <> m -> prefix (p ++ [n]) (p ++ [m]) = false.
Proof.
  intros H. destruct (prefix (p ++ [n]) (p ++ [m])) eqn:E; [|reflexivity]. apply prefix_iff in E as (r & E). rewrite <- app_assoc in E. apply app_inv_head in E. cbn in E. congruence.
Qed.
(** a part that the system does not treat specially *)
Definition plain (n : str) : Prop := n <> lit ".." /\ n <> ROOT.
Definition plainb (n : str) : bool := negb (str_eqb n (lit "..")) && negb (str_eqb n ROOT).
Lemma plainb_ok n : plainb n = true -> plain n.
Proof. unfold plainb, plain. rewrite andb_true_iff, !negb_true_iff. intros [A B]. split; intros ->; [rewrite str_eqb_refl in A|rewrite str_eqb_refl in B]; discriminate. Qed.
Lemma plainb_all l : forallb plainb l = true -> Forall plain l.
Proof. intros H. apply Forall_forall. intros n Hn. rewrite forallb_forall in H. apply plainb_ok, H, Hn. Qed.
Lemma walk_app dir p q : walk dir (p ++ q) = walk (walk dir p) q.
Proof. revert dir. induction p as [|x p IH]; intros dir; [reflexivity|]. cbn [app walk]. apply IH. Qed.
Lemma walk_plain q : Forall plain q -> forall dir, walk dir q = dir ++ q.
Proof.
  induction 1 as [|x q [A B] F IH]; intros dir; cbn [walk]; [rewrite app_nil_r; reflexivity|].
  destruct (str_eqb x (lit "..")) eqn:E; [apply str_eqb_eq in E; contradiction|]. rewrite IH, <- app_assoc. reflexivity.
Qed.
Lemma resolve_app cwd p q : Forall plain q -> resolve cwd (p ++ q) = resolve cwd p ++ q.
Proof.
  intros F. destruct p as [|x p]; cbn [app resolve].
  - destruct q as [|y q]; [rewrite app_nil_r; reflexivity|]. inversion F as [|? ? [A B]]; subst. cbn [resolve]. destruct (str_eqb y ROOT) eqn:E; [apply str_eqb_eq in E; contradiction|].
    apply walk_plain. exact F.
  - destruct (str_eqb x ROOT).
    + rewrite walk_app. apply walk_plain. exact F.
    + change (walk cwd (x :: p ++ q)) with (walk cwd ((x :: p) ++ q)). rewrite walk_app. apply walk_plain. exact F.
Qed.

(** ** Files *)
Lemma find_setFile l p c q : findFile (setFile l p c) q = if path_eqb p q then Some c else findFile l q.
Proof.
  induction l as [|[r d] l IH]; cbn [setFile findFile]; [reflexivity|]. destruct (path_eqb r p) eqn:E; cbn [findFile].
  - apply path_eqb_eq in E. subst r. destruct (path_eqb p q); reflexivity.
  - destruct (path_eqb r q) eqn:E2; [|exact IH]. apply path_eqb_eq in E2. subst r. rewrite path_eqb_neq; [reflexivity|]. intros ->. rewrite path_eqb_refl in E. discriminate.
Qed.
Lemma exists_setFile (t : path -> bool) l p c : existsb (fun '(q, _) => t q) (setFile l p c) = existsb (fun '(q, _) => t q) l || t p.
Proof.
  induction l as [|[r d] l IH]; cbn [setFile existsb]; [apply orb_false_r|]. destruct (path_eqb r p) eqn:E; cbn [existsb].
  - apply path_eqb_eq in E. subst r. destruct (t p), (existsb _ l); reflexivity.
  - rewrite IH, orb_assoc. reflexivity.
Qed.
Definition put (f : fs) (p : path) (c : str) : fs := mkFs (setFile (files f) p c) (dirs f).
Definition mkdir (f : fs) (p : path) : fs := mkFs (files f) (p :: dirs f).
Lemma lookup_put f p c q : lookup (put f p c) q = if path_eqb p q then Some c else lookup f q.
Proof. apply find_setFile. Qed.
Lemma lookup_mkdir f p q : lookup (mkdir f p) q = lookup f q. Proof. reflexivity. Qed.
Lemma through_put f p c q : throughFile (put f p c) q = throughFile f q || prefix p q.
Proof. unfold throughFile, put. cbn [files]. apply (exists_setFile (fun r => prefix r q)). Qed.
Lemma through_mkdir f p q : throughFile (mkdir f p) q = throughFile f q. Proof. reflexivity. Qed.
Lemma isDir_put f p c q : isDir (put f p c) q = isDir f q || (prefix q p && negb (path_eqb q p)).
Proof.
  unfold isDir, put. cbn [files dirs]. destruct q as [|x q]; [reflexivity|]. rewrite (exists_setFile (fun r => prefix (x :: q) r && negb (path_eqb (x :: q) r))), orb_assoc. reflexivity.
Qed.
Lemma isDir_mkdir f p q : isDir (mkdir f p) q = isDir f q || prefix q p.
Proof. unfold isDir, mkdir. cbn [files dirs existsb]. destruct q as [|x q]; [reflexivity|]. destruct (prefix (x :: q) p), (existsb (prefix (x :: q)) (dirs f)), (existsb _ (files f)); reflexivity. Qed.
Lemma removelast_snoc {A} (p : list A) n : removelast (p ++ [n]) = p.
Proof. rewrite removelast_app by discriminate. apply app_nil_r. Qed.
Lemma last_snoc {A} (p : list A) n d : last (p ++ [n]) d = n.
Proof. induction p as [|x p IH]; [reflexivity|]. cbn [app last]. destruct (p ++ [n]) eqn:E; [destruct p; discriminate|exact IH]. Qed.

(** the names of the files that [build] makes, in this order *)
Definition outputs : list str :=
[lit "BidiPropsData.py"; lit "CharPropsData.py"; lit "CasePropsData.py"; lit "uprops_h.py"; lit "ucase_h.py"; lit "uchar_h.py"; lit "uscript_h.py";
 lit "icudata.dat"; lit "LICENSE"; lit "UCDTypeDictionaries.py"; lit "UnicodeVersion.py"].
Lemma outputs_nodup : NoDup outputs.
Proof.
  assert (H : (fix nd (l : list str) := match l with [] => true | x :: r => negb (existsb (str_eqb x) r) && nd r end) outputs = true) by (vm_compute; reflexivity).
  revert H. generalize outputs. induction l as [|x l IH]; intros H; [constructor|]. apply andb_true_iff in H as [A B]. constructor; [|apply IH; exact B].
  intros I. apply negb_true_iff in A. assert (existsb (str_eqb x) l = true) by (apply existsb_exists; exists x; split; [exact I|apply str_eqb_refl]). congruence.
Qed.

(** ** The plan of [build]: the outputs and what they are made of *)
Section Plan.
  Variable cwd : path.
  Variable now : str -> str.
  Variable pyeval : str -> dict Z -> res Z.
  Variable a : args.
  Let icu := parsePath (icuSourceDir a).
  Let icb := parsePath (icuBuildDir a).
  Let out := resolve cwd (parsePath (outputDir a)).

  Definition view := path -> option str.
  (** a missing input is an error *)
  Definition getRaw (look : view) (p : path) : res str := match look (resolve cwd p) with Some c => Ok c | None => Err FileNotFoundError end.
  Definition getText (look : view) (p : path) : res str := let* c := getRaw look p in Ok (universal c).
  Definition moduleItem (src name : str) (ps : list part) (look : view) : res str :=
    let* s := getText look (joinPath icu src) in let* lines := partsLines s ps in
    Ok (join [10] (heading now (lit "ModuleBuilder.py") name (pathName (joinPath icu src)) ++ lines)).
  Definition headerItem (src guard name : str) (extra ignore : list str) (look : view) : res str :=
    let* s := getText look (joinPath icu src) in let* lines := translate guard pyeval ignore (textLines s) in
    Ok (join [10] (heading now (lit "HeaderToPtyhon.py") name (pathName (joinPath icu src)) ++ extra ++ lines)).
  Definition versions (look : view) : res (str * str) :=
    let* s := getText look (joinPath icu (lit "common/unicode/uvernum.h")) in
    let* v := icuVersionOf s in let* w := icuVersionShortOf s in Ok (v, w).
  Definition datPath (w : str) : path := joinPath icb (lit "data/out/icudt" ++ w ++ lit "l.dat").
  Definition datItem (look : view) : res str := let* (v, w) := versions look in getRaw look (datPath w).
  Definition licensePath : path := joinPath (parent icu) (lit "LICENSE").
  Definition licenseItem (look : view) : res str := getRaw look licensePath.
  Definition dictionaries (look : view) : res (option str * dict (list str)) :=
    let* s := getRaw look (joinPath icu (lit "data/unidata/ppucd.txt")) in let* rows := csvRows s in generateDictionaries rows.
  Definition typesItem (look : view) : res str :=
    let* (v, lines) := dictionaries look in
    writeFile (heading now (lit "UCDReader.py") (lit "UCDTypeDictionaries.py") (lit "ppucd.txt") ++ [lit "from .uchar_h import *"; lit "from .uscript_h import *" ++ [10]]) lines.
  Definition versionItem (look : view) : res str := let* (v, _) := dictionaries look in Ok (versionText v).
  Definition plan : list (str * (view -> res str)) :=
    [(lit "BidiPropsData.py", moduleItem (lit "common/ubidi_props_data.h") (lit "BidiPropsData.py") bidiParts);
     (lit "CharPropsData.py", moduleItem (lit "common/uchar_props_data.h") (lit "CharPropsData.py") charParts);
     (lit "CasePropsData.py", moduleItem (lit "common/ucase_props_data.h") (lit "CasePropsData.py") caseParts);
     (lit "uprops_h.py", headerItem (lit "common/uprops.h") (lit "UPROPS_H") (lit "uprops_h.py") [] []);
     (lit "ucase_h.py", headerItem (lit "common/ucase.h") (lit "UCASE_H") (lit "ucase_h.py") [] [lit "UCASECONTEXT_INITIALIZER"]);
     (lit "uchar_h.py", headerItem (lit "common/unicode/uchar.h") (lit "UCHAR_H") (lit "uchar_h.py") maskCode [lit "U_NO_NUMERIC_VALUE"]);
     (lit "uscript_h.py", headerItem (lit "common/unicode/uscript.h") (lit "USCRIPT_H") (lit "uscript_h.py") [] []);
     (lit "icudata.dat", datItem); (lit "LICENSE", licenseItem); (lit "UCDTypeDictionaries.py", typesItem); (lit "UnicodeVersion.py", versionItem)].
  Lemma plan_names : map fst plan = outputs.
  Proof. reflexivity. Qed.

  (** *** The items look at inputs only *)
  Definition agree (k k' : view) : Prop := (forall p n, ~ In n outputs -> k (p ++ [n]) = k' (p ++ [n])) /\ k (resolve cwd licensePath) = k' (resolve cwd licensePath).
  Lemma agree_raw k k' p q n : agree k k' -> Forall plain (q ++ [n]) -> ~ In n outputs -> getRaw k (p ++ q ++ [n]) = getRaw k' (p ++ q ++ [n]).
  Proof. intros [A _] F N. unfold getRaw. rewrite resolve_app, app_assoc by exact F. rewrite A by exact N. reflexivity. Qed.
  Definition notOutput (n : str) : bool := negb (existsb (str_eqb n) outputs).
  Lemma notOutput_ok n : notOutput n = true -> ~ In n outputs.
  Proof. unfold notOutput. rewrite negb_true_iff. intros H I. assert (existsb (str_eqb n) outputs = true) by (apply existsb_exists; exists n; split; [exact I|apply str_eqb_refl]). congruence. Qed.
  Lemma agree_const k k' p s q n : agree k k' -> parsePath s = q ++ [n] -> forallb plainb (q ++ [n]) = true -> notOutput n = true -> getRaw k (joinPath p s) = getRaw k' (joinPath p s).
  Proof. intros A E F N. unfold joinPath. rewrite E. apply agree_raw; [exact A|apply plainb_all; exact F|apply notOutput_ok; exact N]. Qed.
  Lemma agree_module k k' src name ps q n : agree k k' -> parsePath src = q ++ [n] -> forallb plainb (q ++ [n]) = true -> notOutput n = true -> moduleItem src name ps k = moduleItem src name ps k'.
  Proof. intros. unfold moduleItem, getText. rewrite (agree_const k k' icu src q n) by assumption. reflexivity. Qed.
  Lemma agree_header k k' src g name e i q n : agree k k' -> parsePath src = q ++ [n] -> forallb plainb (q ++ [n]) = true -> notOutput n = true -> headerItem src g name e i k = headerItem src g name e i k'.
  Proof. intros. unfold headerItem, getText. rewrite (agree_const k k' icu src q n) by assumption. reflexivity. Qed.
  Lemma agree_versions k k' : agree k k' -> versions k = versions k'.
  Proof. intros A. unfold versions, getText. rewrite (agree_const k k' icu _ [lit "common"; lit "unicode"] (lit "uvernum.h") A) by (vm_compute; reflexivity). reflexivity. Qed.
  Lemma agree_dictionaries k k' : agree k k' -> dictionaries k = dictionaries k'.
  Proof. intros A. unfold dictionaries. rewrite (agree_const k k' icu _ [lit "data"; lit "unidata"] (lit "ppucd.txt") A) by (vm_compute; reflexivity). reflexivity. Qed.

  Lemma agree_sym k k' : agree k k' -> agree k' k.
  Proof. intros [A B]. split; [intros; symmetry; apply A; assumption|congruence]. Qed.
  (** the path of the data file *)
  Lemma split_tail x s t : ~ In x s -> forall cur, splitFrom x (s ++ t) cur = splitFrom x t (cur ++ s).
  Proof.
    induction s as [|y s IH]; intros N cur; [rewrite app_nil_r; reflexivity|]. cbn [app splitFrom]. replace (y =? x) with false by (symmetry; apply Z.eqb_neq; intros ->; apply N; left; reflexivity).
    rewrite IH by (intros I; apply N; right; exact I). rewrite <- app_assoc. reflexivity.
  Qed.
  Lemma span_all {ok : Z -> bool} s v r : span ok s = (v, r) -> Forall (fun c => ok c = true) v.
  Proof.
    revert v r. induction s as [|c s IH]; intros v r H; cbn [span] in H; [inversion H; constructor|]. destruct (ok c) eqn:E; [|inversion H; constructor].
    destruct (span ok s) as [v' r'] eqn:E2. inversion H; subst. constructor; [exact E|]. eapply IH. reflexivity.
  Qed.
  Lemma quoted_ok before ok s v : quotedMatch before ok s = Some v -> v <> [] /\ Forall (fun c => ok c = true) v.
  Proof.
    unfold quotedMatch. destruct (starts before s); [|discriminate]. destruct (span ok (skipn (length before) s)) as [w r] eqn:E. intros H.
    destruct w as [|c w]; [discriminate|]. destruct r as [|d r]; [discriminate|]. destruct (d =? 34); [|discriminate]. inversion H; subst. split; [discriminate|]. eapply span_all. exact E.
  Qed.
  Lemma findFirst_some m s v : findFirst m s = Ok v -> exists t, m t = Some v.
  Proof. induction s as [|c s IH]; cbn [findFirst]; (destruct (m _) eqn:E; [intros H; inversion H; subst; eexists; exact E|]); [discriminate|exact IH]. Qed.
  Lemma short_digits s w : icuVersionShortOf s = Ok w -> w <> [] /\ Forall (fun c => digit c = true) w.
  Proof. intros H. apply findFirst_some in H as (t & H). eapply quoted_ok. exact H. Qed.
  Definition datName (w : str) : str := lit "icudt" ++ w ++ lit "l.dat".
  Lemma dat_path w : Forall (fun c => digit c = true) w -> datPath w = icb ++ [lit "data"; lit "out"] ++ [datName w].
  Proof.
    intros F. unfold datPath, joinPath. f_equal. unfold parsePath, py_split.
    change (lit "data/out/icudt" ++ w ++ lit "l.dat") with (100 :: lit "ata/out/icudt" ++ w ++ lit "l.dat") at 2. cbn [Z.eqb Pos.eqb].
    assert (N : ~ In 47 (w ++ lit "l.dat")).
    { intros I. apply in_app_iff in I as [I|I]; [|vm_compute in I; intuition discriminate]. rewrite Forall_forall in F. specialize (F 47 I). discriminate. }
    change (lit "data/out/icudt" ++ w ++ lit "l.dat") with (lit "data/out/" ++ (lit "icudt" ++ w ++ lit "l.dat")).
    assert (E : forall t, splitFrom 47 (lit "data/out/" ++ t) [] = lit "data" :: lit "out" :: splitFrom 47 t []) by reflexivity. rewrite E.
    replace (lit "icudt" ++ w ++ lit "l.dat") with ((lit "icudt" ++ w ++ lit "l.dat") ++ []) by apply app_nil_r. rewrite split_tail.
    2:{ intros I. apply in_app_iff in I as [I|I]; [vm_compute in I; intuition discriminate|contradiction]. }
    cbn [splitFrom app]. unfold datName. reflexivity.
  Qed.
  Lemma dat_name w : ~ In (datName w) outputs /\ plain (datName w).
  Proof.
    split; [|split; discriminate]. unfold datName. intros I. assert (G : Forall (fun n => firstn 5 n <> lit "icudt") outputs) by (repeat (constructor; [vm_compute; discriminate|]); constructor).
    rewrite Forall_forall in G. apply (G _ I). reflexivity.
  Qed.
  Lemma agree_dat k k' w : agree k k' -> Forall (fun c => digit c = true) w -> getRaw k (datPath w) = getRaw k' (datPath w).
  Proof.
    intros A F. rewrite dat_path by exact F. apply agree_raw; [exact A| |apply dat_name]. constructor; [split; discriminate|]. constructor; [split; discriminate|]. constructor; [apply dat_name|constructor].
  Qed.
  Lemma versions_short k v w : versions k = Ok (v, w) -> Forall (fun c => digit c = true) w.
  Proof.
    unfold versions. destruct (getText k _) as [s|e]; [|discriminate]. cbn [bind]. destruct (icuVersionOf s) as [v'|e]; [|discriminate]. cbn [bind].
    destruct (icuVersionShortOf s) as [w'|e] eqn:E; [|discriminate]. cbn [bind]. intros H. inversion H; subst. eapply short_digits. exact E.
  Qed.
  Lemma agree_plan k k' : agree k k' -> Forall (fun i => snd i k = snd i k') plan.
  Proof.
    intros A. unfold plan.
    assert (C : parsePath (lit "common/ubidi_props_data.h") = [lit "common"] ++ [lit "ubidi_props_data.h"] /\ parsePath (lit "common/uchar_props_data.h") = [lit "common"] ++ [lit "uchar_props_data.h"] /\
      parsePath (lit "common/ucase_props_data.h") = [lit "common"] ++ [lit "ucase_props_data.h"] /\ parsePath (lit "common/uprops.h") = [lit "common"] ++ [lit "uprops.h"] /\
      parsePath (lit "common/ucase.h") = [lit "common"] ++ [lit "ucase.h"] /\ parsePath (lit "common/unicode/uchar.h") = [lit "common"; lit "unicode"] ++ [lit "uchar.h"] /\
      parsePath (lit "common/unicode/uscript.h") = [lit "common"; lit "unicode"] ++ [lit "uscript.h"]) by (vm_compute; repeat split).
    destruct C as (C1 & C2 & C3 & C4 & C5 & C6 & C7).
    constructor; [cbn [snd]; apply (agree_module k k' _ _ _ _ _ A C1); vm_compute; reflexivity|].
    constructor; [cbn [snd]; apply (agree_module k k' _ _ _ _ _ A C2); vm_compute; reflexivity|].
    constructor; [cbn [snd]; apply (agree_module k k' _ _ _ _ _ A C3); vm_compute; reflexivity|].
    constructor; [cbn [snd]; apply (agree_header k k' _ _ _ _ _ _ _ A C4); vm_compute; reflexivity|].
    constructor; [cbn [snd]; apply (agree_header k k' _ _ _ _ _ _ _ A C5); vm_compute; reflexivity|].
    constructor; [cbn [snd]; apply (agree_header k k' _ _ _ _ _ _ _ A C6); vm_compute; reflexivity|].
    constructor; [cbn [snd]; apply (agree_header k k' _ _ _ _ _ _ _ A C7); vm_compute; reflexivity|].
    constructor; [|constructor; [|constructor; [|constructor; [|constructor]]]]; cbn [snd].
    - unfold datItem. rewrite (agree_versions k k' A). destruct (versions k') as [[v w]|e] eqn:E; [|reflexivity]. cbn [bind]. apply agree_dat; [exact A|]. eapply versions_short. exact E.
    - unfold licenseItem, getRaw. destruct A as [_ ->]. reflexivity.
    - unfold typesItem. rewrite (agree_dictionaries k k' A). reflexivity.
    - unfold versionItem. rewrite (agree_dictionaries k k' A). reflexivity.
  Qed.
End Plan.
