(** * Property C97: paths given as text *)
From Coq Require Import ZArith List Bool Lia String.
From Verif Require Import Py Dict PyStr Utilities CharNames PyText UCDFacts BuilderArgs Build BuildFacts.
Import ListNotations.
Open Scope string_scope.
Open Scope list_scope.
Open Scope Z_scope.
Local Notation length := List.length.

(** the name of a file or directory: not empty, no slash, not a dot or two *)
Definition fileName (x : str) : Prop := x <> [] /\ ~ In 47 x /\ x <> lit "." /\ x <> lit "..".
Definition absolute (s : str) : Prop := exists r, s = 47 :: r.
(** where the text [s] leads from the directory [cwd] *)
Definition leads (cwd : path) (s : str) : path := resolve cwd (parsePath s).

Lemma split_slash s : forall t cur, splitFrom 47 (s ++ 47 :: t) cur = splitFrom 47 s cur ++ splitFrom 47 t [].
Proof. induction s as [|y s IH]; intros t cur; cbn [app splitFrom]; [reflexivity|]. destruct (y =? 47); [cbn [app]; f_equal|]; apply IH. Qed.
Definition keep (p : str) : bool := negb (str_eqb p []) && negb (str_eqb p (lit ".")).
Definition partsOf (s : str) : path := filter keep (py_split s 47).
Lemma parts_slash s t : partsOf (s ++ 47 :: t) = partsOf s ++ partsOf t.
Proof. unfold partsOf, py_split. rewrite split_slash. apply filter_app. Qed.
Lemma parse_parts s : parsePath s = match s with c :: _ => if c =? 47 then ROOT :: partsOf s else partsOf s | [] => [] end.
Proof. destruct s; reflexivity. Qed.
Lemma no_slash s : Forall (fun p => ~ In 47 p) (partsOf s).
Proof.
  apply Forall_forall. intros p Hp. apply filter_In in Hp as [Hp _]. destruct (join_split 47 s) as [_ F]. rewrite Forall_forall in F. exact (F p Hp).
Qed.
Lemma not_root s x r : partsOf s = x :: r -> str_eqb x ROOT = false.
Proof. intros E. pose proof (no_slash s) as F. rewrite E in F. inversion F as [|? ? N _]; subst. destruct (str_eqb x ROOT) eqn:Q; [|reflexivity]. apply str_eqb_eq in Q. subst. exfalso. apply N. left. reflexivity. Qed.
Lemma resolve_parts cwd s : resolve cwd (partsOf s) = walk cwd (partsOf s).
Proof. destruct (partsOf s) as [|x r] eqn:E; [reflexivity|]. cbn [resolve]. rewrite (not_root s x r E). reflexivity. Qed.
Lemma leads_relative cwd s : ~ absolute s -> leads cwd s = walk cwd (partsOf s).
Proof.
  intros N. unfold leads. rewrite parse_parts. destruct s as [|c s]; [reflexivity|]. destruct (Z.eqb_spec c 47) as [->|_]; [exfalso; apply N; eexists; reflexivity|]. apply resolve_parts.
Qed.
Lemma leads_absolute cwd s : absolute s -> leads cwd s = walk [] (partsOf s).
Proof. intros [r ->]. unfold leads. rewrite parse_parts. cbn [Z.eqb Pos.eqb resolve]. rewrite str_eqb_refl. reflexivity. Qed.
Lemma parts_name x : fileName x -> partsOf x = [x].
Proof.
  intros (A & B & C & D). unfold partsOf, py_split. rewrite <- (app_nil_r x) at 1. rewrite splitFrom_piece by exact B. cbn [splitFrom app filter]. unfold keep.
  destruct (str_eqb x []) eqn:E1; [apply str_eqb_eq in E1; congruence|]. destruct (str_eqb x (lit ".")) eqn:E2; [apply str_eqb_eq in E2; congruence|]. reflexivity.
Qed.

(** ** C97

    What a path means to the system.  The equations say what each text means: the empty text and
    the dot are the directory itself, two dots the directory above, the slash the root, a name the
    entry of that name, and [s/t] is what [t] is from the place of [s]. *)
Theorem C97_paths : forall cwd,
  leads cwd [] = cwd /\ leads cwd (lit ".") = cwd /\ leads cwd (lit "..") = removelast cwd /\ leads cwd (lit "/") = [] /\
  (forall x, fileName x -> leads cwd x = cwd ++ [x]) /\
  (forall x, fileName x -> leads cwd (lit "/" ++ x) = [x]) /\
  (forall s t, s <> [] -> ~ absolute t -> leads cwd (s ++ lit "/" ++ t) = leads (leads cwd s) t).
Proof.
  intros cwd. repeat (apply conj); try reflexivity.
  - intros x F. pose proof F as (A & B & C & D). rewrite leads_relative, (parts_name x F). { cbn [walk]. destruct (str_eqb x (lit "..")) eqn:E; [apply str_eqb_eq in E; contradiction|reflexivity]. }
    intros [r ->]. apply B. left. reflexivity.
  - intros x F. pose proof F as (A & B & C & D). rewrite leads_absolute by (eexists; reflexivity). change (lit "/" ++ x) with ([] ++ 47 :: x). rewrite parts_slash, (parts_name x F).
    change (partsOf []) with (@nil str). cbn [app walk]. destruct (str_eqb x (lit "..")) eqn:E; [apply str_eqb_eq in E; contradiction|reflexivity].
  - intros s t N NT. change (lit "/" ++ t) with (47 :: t). rewrite (leads_relative _ t NT). destruct s as [|c s]; [contradiction|].
    destruct (Z.eq_dec c 47) as [->|NC].
    + rewrite !leads_absolute by (eexists; reflexivity). rewrite parts_slash. apply walk_app.
    + rewrite !leads_relative by (intros [r E]; injection E as ->; congruence). rewrite parts_slash. apply walk_app.
Qed.
Print Assumptions C97_paths.

(** The parent and the children that [build] makes of its arguments: the license is looked for
    beside the source directory if the argument ends in its name, and the outputs are entries of
    the output directory whatever the argument is. *)
Theorem C97_parent : forall cwd x, fileName x ->
  resolve cwd (parent (parsePath x)) = cwd /\
  resolve cwd (parent (parsePath (lit "/" ++ x))) = [] /\
  forall s, s <> [] -> resolve cwd (parent (parsePath (s ++ lit "/" ++ x))) = leads cwd s.
Proof.
  intros cwd x F. pose proof F as (A & B & C & D).
  assert (PX : parsePath x = [x]).
  { rewrite parse_parts. destruct x as [|c x]; [contradiction|]. destruct (Z.eqb_spec c 47) as [->|_]; [exfalso; apply B; left; reflexivity|apply parts_name; exact F]. }
  assert (RX : str_eqb x ROOT = false) by (destruct (str_eqb x ROOT) eqn:E; [apply str_eqb_eq in E; subst; exfalso; apply B; left; reflexivity|reflexivity]).
  split; [|split].
  - rewrite PX. cbn [parent]. rewrite RX. reflexivity.
  - assert (P : parsePath (lit "/" ++ x) = [ROOT; x]) by (rewrite parse_parts; change (lit "/" ++ x) with ([] ++ 47 :: x); rewrite parts_slash, (parts_name x F); reflexivity).
    rewrite P. reflexivity.
  - intros s N. assert (P : parsePath (s ++ lit "/" ++ x) = parsePath s ++ [x]).
    { rewrite !parse_parts. destruct s as [|c s]; [contradiction|]. cbn [app]. change (c :: s ++ lit "/" ++ x) with ((c :: s) ++ 47 :: x). rewrite parts_slash, (parts_name x F). destruct (c =? 47); reflexivity. }
    rewrite P. unfold leads. destruct (parsePath s) as [|y [|z r]] eqn:E.
    + cbn [app parent]. rewrite RX. reflexivity.
    + reflexivity.
    + change (parent ((y :: z :: r) ++ [x])) with (removelast ((y :: z :: r) ++ [x])). rewrite removelast_snoc. reflexivity.
Qed.
Print Assumptions C97_parent.
Theorem C97_child : forall cwd s t, ~ absolute t -> resolve cwd (joinPath (parsePath s) t) = leads (leads cwd s) t.
Proof.
  intros cwd s t N. rewrite (leads_relative _ t N). unfold joinPath, leads. assert (P : parsePath t = partsOf t).
  { rewrite parse_parts. destruct t as [|c t]; [reflexivity|]. destruct (Z.eqb_spec c 47) as [->|_]; [exfalso; apply N; eexists; reflexivity|reflexivity]. }
  rewrite P. destruct (parsePath s) as [|y r] eqn:E; [apply resolve_parts|]. cbn [app resolve]. destruct (str_eqb y ROOT); [|change (y :: r ++ partsOf t) with ((y :: r) ++ partsOf t)]; apply walk_app.
Qed.
Print Assumptions C97_child.
(** That the parent of a path is the directory above it fails for [.] and for [..]. *)
Theorem C97_parent_refuted : exists cwd s, parent (parsePath s) = [] /\ resolve cwd (parent (parsePath s)) <> removelast (leads cwd s).
Proof. exists [lit "a"; lit "b"], (lit "."). split; [reflexivity|]. vm_compute. discriminate. Qed.
Print Assumptions C97_parent_refuted.
Example C97_case : leads [lit "home"; lit "me"] (lit "../icu//source/./") = [lit "home"; lit "icu"; lit "source"] /\
  leads [lit "home"; lit "me"] (lit "/opt/../../icu") = [lit "icu"] /\ fileName (lit "icu4c.tmp") /\ fileName (lit "...").
Proof. split; [reflexivity|]. split; [reflexivity|]. split; repeat split; try discriminate; vm_compute; intuition discriminate. Qed.
