(** * ModuleBuilder and UCDReader: facts *)
From Coq Require Import ZArith List Bool Lia ZifyBool String.
From Verif Require Import Py Dict PyStr Utilities CharNames PyText HeaderFacts HeaderDecls ModuleBuilder PyModule ModuleFacts.
Import ListNotations.
Open Scope Z_scope.
Local Notation length := List.length.
Local Notation concat := List.concat.

(** ** Finding a declaration *)
(** [p] is not in [s] *)
Definition absent (p s : str) : Prop := forall a b, s <> a ++ p ++ b.
Lemma absent_cons p c s : absent p (c :: s) -> absent p s.
Proof. intros H a b E. apply (H (c :: a) b). cbn. rewrite E. reflexivity. Qed.
(** the first [p] in [a ++ p ++ b] is the one shown *)
Definition first_at (p a : str) : Prop := absent p (a ++ removelast p).
Lemma starts_app_inv p a b : starts p (a ++ b) = true -> (length p <= length a)%nat -> starts p a = true.
Proof.
  revert a. induction p as [|x p IH]; intros a H L; [reflexivity|]. destruct a as [|y a]; [cbn in L; lia|]. cbn [app starts] in *. destruct (x =? y); [|discriminate].
  apply IH; [exact H|cbn in L; lia].
Qed.
Lemma app_removelast (p : str) : p <> [] -> exists z, p = removelast p ++ [z].
Proof. intros N. exists (last p 0). apply app_removelast_last. exact N. Qed.
Lemma absent_start p s : absent p s -> p <> [] -> starts p s = false.
Proof. intros A N. destruct (starts p s) eqn:E; [|reflexivity]. apply starts_iff in E. destruct E as [r ->]. elim (A [] r). reflexivity. Qed.
Lemma first_at_front p c a b : p <> [] -> first_at p (c :: a) -> starts p ((c :: a) ++ p ++ b) = false.
Proof.
  intros N F. destruct (starts p ((c :: a) ++ p ++ b)) eqn:E; [|reflexivity]. exfalso.
  destruct (app_removelast p N) as [z Z]. assert (L : length p = S (length (removelast p))) by (rewrite Z at 1; rewrite app_length; cbn; lia).
  assert (S : starts p ((c :: a) ++ removelast p) = true).
  { apply starts_app_inv with (b := [z] ++ b); [|rewrite app_length, L; cbn; lia]. rewrite <- app_assoc. rewrite (app_assoc (removelast p)). rewrite <- Z. exact E. }
  apply starts_iff in S. destruct S as [r R]. apply (F [] r). exact R.
Qed.
Lemma first_at_tail p c a : first_at p (c :: a) -> first_at p a.
Proof. intros F x y E. apply (F (c :: x) y). cbn [app]. f_equal. exact E. Qed.
Lemma cut_first p a b : p <> [] -> first_at p a -> cut p (a ++ p ++ b) = Some (a, b).
Proof.
  intros N. induction a as [|c a IH]; intros F.
  - cbn [app]. assert (E : starts p (p ++ b) = true) by apply starts_app. destruct (p ++ b) as [|x r] eqn:Q; cbn [cut]; rewrite E; rewrite <- Q, skipn_app_len; reflexivity.
  - pose proof (first_at_front p c a b N F) as E. cbn [app] in *. cbn [cut]. rewrite E. rewrite IH; [reflexivity|]. exact (first_at_tail _ _ _ F).
Qed.
Lemma first_absent p a : first_at p a -> absent p a.
Proof. intros F x y E. apply (F x (y ++ removelast p)). rewrite E, <- !app_assoc. reflexivity. Qed.
(** the group is the shortest text of one or more characters *)
Lemma lazyGroup_first close c a b : close <> [] -> first_at close a -> lazyGroup close ((c :: a) ++ close ++ b) = Some (c :: a, b).
Proof. intros N F. cbn [app lazyGroup]. rewrite cut_first by assumption. reflexivity. Qed.
Lemma findFirst_at m p s g a : p <> [] -> (forall s, m s <> None -> starts p s = true) -> first_at p a -> (exists r, s = p ++ r) -> m s = Some g -> findFirst m (a ++ s) = Ok g.
Proof.
  intros N M F [r R] E. induction a as [|c a IH].
  - cbn [app]. destruct s; cbn [findFirst]; rewrite E; reflexivity.
  - cbn [app findFirst]. assert (m (c :: a ++ s) = None) as ->.
    { destruct (m (c :: a ++ s)) eqn:Q; [|reflexivity]. exfalso. assert (S : starts p (c :: a ++ s) = true) by (apply M; congruence). rewrite R in S.
      pose proof (first_at_front p c a r N F) as S'. cbn [app] in S'. congruence. }
    apply IH. exact (first_at_tail _ _ _ F).
Qed.
Lemma array_found name pre dim body post : first_at (name ++ lit "[") pre -> dim <> [] -> first_at (lit "]={") (tl dim) -> body <> [] -> first_at (lit "};") (tl body) ->
  getArrayDeclaration (pre ++ name ++ lit "[" ++ dim ++ lit "]={" ++ body ++ lit "};" ++ post) name = Ok body.
Proof.
  intros F ND FD NB FB. unfold getArrayDeclaration. apply findFirst_at with (p := name ++ lit "[").
  - destruct name; discriminate.
  - intros s. unfold arrayMatch. destruct (starts (name ++ lit "[") s); [reflexivity|congruence].
  - exact F.
  - eexists. rewrite <- app_assoc. reflexivity.
  - unfold arrayMatch. rewrite (app_assoc name). rewrite starts_app, skipn_app_len. destruct dim as [|d dim]; [contradiction|]. rewrite lazyGroup_first; [|discriminate|exact FD].
    destruct body as [|x body]; [contradiction|]. rewrite lazyGroup_first; [reflexivity|discriminate|exact FB].
Qed.
Lemma props_found name pre body post : first_at (name ++ lit "={" ++ [10]) pre -> body <> [] -> first_at ([10] ++ lit "};") (tl body) ->
  getPropsDeclaration (pre ++ (name ++ lit "={" ++ [10]) ++ body ++ ([10] ++ lit "};") ++ post) name = Ok body.
Proof.
  intros F NB FB. unfold getPropsDeclaration. apply findFirst_at with (p := name ++ lit "={" ++ [10]).
  - destruct name; discriminate.
  - intros s. unfold propsMatch. destruct (starts _ s); [reflexivity|congruence].
  - exact F.
  - eexists. reflexivity.
  - unfold propsMatch. rewrite starts_app, skipn_app_len. destruct body as [|x body]; [contradiction|]. rewrite lazyGroup_first; [reflexivity|discriminate|exact FB].
Qed.
Lemma scalar_found name pre value post : first_at (name ++ lit "=") pre -> value <> [] -> ~ In 10 value -> (post = [] \/ exists r, post = 10 :: r) ->
  getScalarDeclaration (pre ++ (name ++ lit "=") ++ value ++ lit ";" ++ post) name = Ok value.
Proof.
  intros F NV N10 P. unfold getScalarDeclaration. apply findFirst_at with (p := name ++ lit "=").
  - destruct name; discriminate.
  - intros s. unfold scalarMatch. destruct (starts _ s); [reflexivity|congruence].
  - exact F.
  - eexists. reflexivity.
  - unfold scalarMatch. rewrite starts_app, skipn_app_len. rewrite app_assoc. rewrite span_intro.
    + rewrite rev_app_distr. change (rev (lit ";")) with (lit ";"). assert (cut (lit ";") (lit ";" ++ rev value) = Some ([], rev value)) as -> by (apply (cut_first (lit ";") [] (rev value)); [discriminate|intros a b E; destruct a; discriminate]).
      destruct (rev value) eqn:R; [apply (f_equal (@rev Z)) in R; rewrite rev_involutive in R; contradiction|]. rewrite <- R, rev_involutive. reflexivity.
    + rewrite forallb_app. apply andb_true_intro. split; [|reflexivity]. apply forallb_forall. intros c I. apply negb_true_iff. apply Z.eqb_neq. intros ->. contradiction.
    + destruct P as [->|[r ->]]; [exact I|reflexivity].
Qed.

(** ** The text of an array: only white space is changed *)
Definition dense (s : str) : str := filter (fun c => negb (uSpace c)) s.
Lemma dense_app a b : dense (a ++ b) = dense a ++ dense b.
Proof. apply filter_app. Qed.
Lemma dense_replace s : dense (py_replace s 10 ([10] ++ lit "    ")) = dense s.
Proof.
  unfold py_replace. induction s as [|c s IH]; [reflexivity|]. cbn [flat_map]. rewrite dense_app, IH. destruct (c =? 10) eqn:E; [|exact (eq_sym (dense_app [c] s))].
  apply Z.eqb_eq in E. subst c. reflexivity.
Qed.
Lemma dense_removelast s : ends [10] s = true -> dense (removelast s) = dense s.
Proof.
  intros H. destruct s as [|c s] using rev_ind; [discriminate|]. unfold ends in H. rewrite rev_app_distr in H. cbn in H. destruct c as [|p|p]; try discriminate.
  assert (Z.pos p = 10) as -> by (destruct (10 =? p)%positive eqn:E; [apply Pos.eqb_eq in E; congruence|discriminate]).
  rewrite removelast_last, dense_app. rewrite app_nil_r. reflexivity.
Qed.
Lemma array_dense name body : word name -> dense (arrayText name body) = name ++ lit "=[" ++ dense body ++ lit "]".
Proof.
  intros [_ W]. unfold arrayText. cbv zeta. rewrite !dense_app.
  assert (D : dense name = name).
  { unfold dense. induction name as [|c n IH]; [reflexivity|]. cbn in W |- *. apply andb_prop in W. destruct W as [W1 W2]. rewrite (word_not_space c W1). cbn. rewrite IH by exact W2. reflexivity. }
  rewrite D. change (dense (lit " = [")) with (lit "=["). change (dense (lit "]")) with (lit "]"). change (dense [10]) with (@nil Z). rewrite app_nil_r.
  destruct (ends [10] body) eqn:E; destruct (existsb (Z.eqb 10) body); cbn [app]; rewrite ?dense_replace; change (dense [10]) with (@nil Z); change (dense []) with (@nil Z); cbn [app].
  - rewrite (dense_removelast body E). reflexivity.
  - rewrite (dense_removelast body E). reflexivity.
  - reflexivity.
  - reflexivity.
Qed.

(** ** The fields of a trie *)
Lemma split_join sep : sep <> [] -> forall fs n, fs <> [] -> Forall (first_at sep) fs -> (length fs <= S n)%nat ->
  splitLoop n sep (join sep fs) = fs.
Proof.
  intros NS fs. induction fs as [|f fs IH]; intros n NF A L; [contradiction|]. inversion A as [|? ? F A']; subst. pose proof (first_absent _ _ F) as B. destruct fs as [|g fs].
  - cbn [join]. destruct n as [|n]; [reflexivity|]. cbn [splitLoop]. assert (cut sep f = None) as ->; [|reflexivity].
    clear -B NS. induction f as [|c f IH]; cbn [cut].
    + rewrite (absent_start sep [] B NS). reflexivity.
    + rewrite (absent_start sep _ B NS). rewrite IH by exact (absent_cons _ _ _ B). reflexivity.
  - change (join sep (f :: g :: fs)) with (f ++ sep ++ join sep (g :: fs)). destruct n as [|n]; [cbn in L; lia|]. cbn [splitLoop].
    rewrite cut_first by assumption. f_equal. apply IH; [discriminate|exact A'|cbn in *; lia].
Qed.
Lemma join_length sep fs : sep <> [] -> (length fs <= S (length (join sep fs)))%nat.
Proof.
  intros N. induction fs as [|f [|g fs] IH]; [cbn; lia|cbn; lia|]. change (join sep (f :: g :: fs)) with (f ++ sep ++ join sep (g :: fs)).
  rewrite !app_length. destruct sep; [contradiction|]. cbn [length] in *. lia.
Qed.
Lemma split_fields sep fs : sep <> [] -> fs <> [] -> Forall (first_at sep) fs -> split sep (join sep fs) = fs.
Proof. intros N NF A. unfold split. apply split_join; try assumption. apply join_length. exact N. Qed.

(** ** UCDReader *)
(** type, short name and long name of a row "value; type; short; long; ..." *)
Definition valueOf (row : list str) : option (str * str * str) :=
  match row with
  | k :: t :: s :: l :: _ => if str_eqb k (lit "value") then Some (t, s, l) else None
  | _ => None
  end.
Definition versionOf (row : list str) : option str :=
  match row with k :: v :: _ => if str_eqb k (lit "ucd") then Some v else None | _ => None end.
(** rows with as many cells as their kind needs *)
Definition row_ok (row : list str) : Prop :=
  match row with
  | [] => True
  | k :: _ => (k = lit "ucd" -> (2 <= length row)%nat) /\ (k = lit "value" -> (4 <= length row)%nat)
  end.
(** the entry for a value: none if the long name has "" for its constant *)
Definition entryOf (p : typePrefix) (s l : str) : list (str * str) :=
  match dict_find (tp_map p) l with
  | Some [] => []
  | Some k => [(tp_prefix p ++ lit "_" ++ k, applyShort (tp_fun p) s)]
  | None => [(tp_prefix p ++ lit "_" ++ upper l, applyShort (tp_fun p) s)]
  end.
(** constants and names of a type, in the order of the rows *)
Definition entriesOf (t : str) (p : typePrefix) (rows : list (list str)) : list (str * str) :=
  flat_map (fun row => match valueOf row with Some (t', s, l) => if str_eqb t' t then entryOf p s l else [] | None => [] end) rows.
Definition knownType (row : list str) : list str :=
  match valueOf row with Some (t, _, _) => match dict_find prefixes t with Some _ => [t] | None => [] end | None => [] end.
(** each element once, in the order of the first occurrences *)
Definition firsts (l : list str) : list str := fold_left (fun acc t => if existsb (str_eqb t) acc then acc else acc ++ [t]) l [].
Definition typesOf (rows : list (list str)) : list str := firsts (flat_map knownType rows).
Definition lastVersion (rows : list (list str)) : option str :=
  fold_left (fun acc row => match versionOf row with Some v => Some v | None => acc end) rows None.
(** the line for a constant and its name *)
Definition lineOf (e : str * str) : str := lit "    " ++ fst e ++ lit ": " ++ [34] ++ snd e ++ [34].
Definition prefixOf (t : str) : typePrefix :=
  match dict_find prefixes t with Some p => p | None => {| tp_prefix := []; tp_name := []; tp_map := []; tp_fun := CopyName |} end.
Definition linesOf (rows : list (list str)) : dict (list str) := map (fun t => (t, map lineOf (entriesOf t (prefixOf t) rows))) (typesOf rows).

Lemma firsts_snoc l t : firsts (l ++ [t]) = if existsb (str_eqb t) (firsts l) then firsts l else firsts l ++ [t].
Proof. unfold firsts. rewrite fold_left_app. reflexivity. Qed.
Lemma existsb_str t l : existsb (str_eqb t) l = true <-> In t l.
Proof.
  rewrite existsb_exists. split.
  - intros [x [I E]]. apply str_eqb_eq in E. subst x. exact I.
  - intros I. exists t. split; [exact I|apply str_eqb_refl].
Qed.
Lemma firsts_in l t : In t (firsts l) <-> In t l.
Proof.
  induction l as [|x l IH] using rev_ind; [reflexivity|]. rewrite firsts_snoc, in_app_iff. destruct (existsb (str_eqb x) (firsts l)) eqn:E.
  - apply existsb_str in E. split; [intros H; left; apply IH; exact H|]. intros [H|[<-|[]]]; [apply IH; exact H|exact E].
  - rewrite in_app_iff, IH. reflexivity.
Qed.
Lemma firsts_nodup l : NoDup (firsts l).
Proof.
  induction l as [|x l IH] using rev_ind; [constructor|]. rewrite firsts_snoc. destruct (existsb (str_eqb x) (firsts l)) eqn:E; [exact IH|].
  assert (N : ~ In x (firsts l)) by (intros H; apply existsb_str in H; congruence).
  clear -IH N. induction IH as [|y l' Ny IH' IH2]; cbn; [constructor; [intros []|constructor]|]. constructor.
  - rewrite in_app_iff. intros [H|[->|[]]]; [contradiction|]. apply N. left. reflexivity.
  - apply IH2. intros H. apply N. right. exact H.
Qed.
Lemma find_map {V} (f : str -> V) ts t : dict_find (map (fun t => (t, f t)) ts) t = if existsb (str_eqb t) ts then Some (f t) else None.
Proof.
  induction ts as [|x ts IH]; [reflexivity|]. cbn [map dict_find existsb]. destruct (str_eqb x t) eqn:E.
  - apply str_eqb_eq in E. subst x. rewrite str_eqb_refl. reflexivity.
  - assert (str_eqb t x = false) as -> by (destruct (str_eqb t x) eqn:Q; [apply str_eqb_eq in Q; subst; rewrite str_eqb_refl in E; discriminate|reflexivity]). exact IH.
Qed.
Lemma set_map {V} (f : str -> V) ts t v : NoDup ts ->
  dict_set (map (fun t => (t, f t)) ts) t v = map (fun x => (x, if str_eqb x t then v else f x)) (if existsb (str_eqb t) ts then ts else ts ++ [t]).
Proof.
  intros N. induction N as [|x ts Nx N IH]; cbn [map dict_set existsb].
  - cbn. rewrite str_eqb_refl. reflexivity.
  - destruct (str_eqb x t) eqn:E.
    + pose proof E as E'. apply str_eqb_eq in E'. subst x. rewrite str_eqb_refl. cbn [orb map]. rewrite str_eqb_refl. f_equal. apply map_ext_in. intros y I.
      destruct (str_eqb y t) eqn:Q; [apply str_eqb_eq in Q; subst y; contradiction|reflexivity].
    + assert (str_eqb t x = false) as -> by (destruct (str_eqb t x) eqn:Q; [apply str_eqb_eq in Q; subst; rewrite str_eqb_refl in E; discriminate|reflexivity]).
      cbn [orb]. rewrite IH. destruct (existsb (str_eqb t) ts); cbn [map app]; rewrite E; reflexivity.
Qed.

Lemma readRows_app a b st : readRows (a ++ b) st = let* st := readRows a st in readRows b st.
Proof. revert st. induction a as [|x a IH]; intros st; [reflexivity|]. cbn [app readRows]. destruct (readRow x st); cbn [bind]; [apply IH|reflexivity]. Qed.
Lemma entriesOf_snoc t p rows row : entriesOf t p (rows ++ [row]) =
  entriesOf t p rows ++ match valueOf row with Some (t', s, l) => if str_eqb t' t then entryOf p s l else [] | None => [] end.
Proof. unfold entriesOf. rewrite flat_map_app. cbn [flat_map]. rewrite app_nil_r. reflexivity. Qed.
Lemma readRow_step rows row : row_ok row -> readRow row (lastVersion rows, linesOf rows) = Ok (lastVersion (rows ++ [row]), linesOf (rows ++ [row])).
Proof.
  intros R. assert (V : lastVersion (rows ++ [row]) = match versionOf row with Some v => Some v | None => lastVersion rows end) by (unfold lastVersion; rewrite fold_left_app; reflexivity).
  assert (T : flat_map knownType (rows ++ [row]) = flat_map knownType rows ++ knownType row) by (rewrite flat_map_app; cbn [flat_map]; rewrite app_nil_r; reflexivity).
  assert (SAME : valueOf row = None -> linesOf (rows ++ [row]) = linesOf rows).
  { intros E. unfold linesOf, typesOf. rewrite T. unfold knownType at 2. rewrite E, app_nil_r. apply map_ext. intros t. rewrite entriesOf_snoc, E, app_nil_r. reflexivity. }
  destruct row as [|k row]; [cbn [readRow]; rewrite V, SAME; reflexivity|]. destruct R as [R1 R2]. cbn [readRow].
  destruct (str_eqb k (lit "ucd")) eqn:E1.
  { pose proof E1 as E1'. apply str_eqb_eq in E1'. subst k. specialize (R1 eq_refl). destruct row as [|v row]; [cbn in R1; lia|]. cbn [cell nth_error bind]. rewrite V, SAME; [|destruct row as [|? [|? ?]]; reflexivity].
    cbn [versionOf]. rewrite str_eqb_refl. reflexivity. }
  destruct (str_eqb k (lit "value")) eqn:E2.
  2: { rewrite V, SAME; [|destruct row as [|? [|? [|? ?]]]; cbn [valueOf]; rewrite ?E2; reflexivity]. destruct row; cbn [versionOf]; rewrite ?E1; reflexivity. }
  pose proof E2 as E2'. apply str_eqb_eq in E2'. subst k. specialize (R2 eq_refl). destruct row as [|t [|s [|l row]]]; try (cbn in R2; lia). unfold cell. cbn [nth_error bind].
  assert (VO : valueOf (lit "value" :: t :: s :: l :: row) = Some (t, s, l)) by reflexivity. rewrite V. change (versionOf (lit "value" :: t :: s :: l :: row)) with (@None str). cbv iota.
  destruct (dict_find prefixes t) as [p|] eqn:P.
  2: { f_equal. f_equal. unfold linesOf, typesOf. rewrite T. unfold knownType at 3. rewrite VO, P, app_nil_r. apply map_ext_in. intros t' I. rewrite entriesOf_snoc, VO.
       destruct (str_eqb t t') eqn:Q; [|rewrite app_nil_r; reflexivity]. apply str_eqb_eq in Q. subst t'. exfalso. apply (proj1 (firsts_in _ _)) in I. apply in_flat_map in I.
       destruct I as [r [_ I]]. unfold knownType in I. destruct (valueOf r) as [[[t2 s2] l2]|]; [|destruct I]. destruct (dict_find prefixes t2) eqn:P2; [|destruct I]. destruct I as [<-|[]]. congruence. }
  set (f := fun t => map lineOf (entriesOf t (prefixOf t) rows)). change (linesOf rows) with (map (fun t => (t, f t)) (typesOf rows)).
  assert (PT : prefixOf t = p) by (unfold prefixOf; rewrite P; reflexivity).
  assert (TY : typesOf (rows ++ [lit "value" :: t :: s :: l :: row]) = if existsb (str_eqb t) (typesOf rows) then typesOf rows else typesOf rows ++ [t]).
  { unfold typesOf. rewrite T. unfold knownType at 2. rewrite VO, P. apply firsts_snoc. }
  assert (NE : existsb (str_eqb t) (typesOf rows) = false -> f t = []).
  { intros E. unfold f. assert (entriesOf t (prefixOf t) rows = []) as ->; [|reflexivity]. unfold entriesOf. 
    assert (N : ~ In t (typesOf rows)) by (intros I; apply existsb_str in I; congruence).
    assert (A : forall r, In r rows -> match valueOf r with Some (t', s, l) => if str_eqb t' t then entryOf (prefixOf t) s l else [] | None => [] end = []).
    { intros r I. destruct (valueOf r) as [[[t2 s2] l2]|] eqn:Q; [|reflexivity]. destruct (str_eqb t2 t) eqn:Q2; [|reflexivity]. apply str_eqb_eq in Q2. subst t2. exfalso. apply N.
      apply firsts_in. apply in_flat_map. exists r. split; [exact I|]. unfold knownType. rewrite Q, P. left. reflexivity. }
    clear -A. induction rows as [|r rows IH]; [reflexivity|]. cbn [flat_map]. rewrite A by (left; reflexivity). apply IH. intros r' I. apply A. right. exact I. }
  assert (LN : linesOf (rows ++ [lit "value" :: t :: s :: l :: row]) =
    map (fun x => (x, if str_eqb x t then f t ++ map lineOf (entryOf p s l) else f x)) (if existsb (str_eqb t) (typesOf rows) then typesOf rows else typesOf rows ++ [t])).
  { unfold linesOf. rewrite TY. apply map_ext. intros x. rewrite entriesOf_snoc, VO. destruct (str_eqb t x) eqn:Q.
    - apply str_eqb_eq in Q. subst x. rewrite str_eqb_refl. rewrite map_app, PT. unfold f. rewrite PT. reflexivity.
    - assert (str_eqb x t = false) as -> by (destruct (str_eqb x t) eqn:Q2; [apply str_eqb_eq in Q2; subst; rewrite str_eqb_refl in Q; discriminate|reflexivity]).
      rewrite app_nil_r. reflexivity. }
  rewrite LN. rewrite find_map. cbv zeta.
  assert (KE : map lineOf (entryOf p s l) = match keyOf p l with Some key => [dictLine p key s] | None => [] end).
  { unfold entryOf, keyOf, dictLine, lineOf. destruct (dict_find (tp_map p) l) as [[|k0 k]|]; [reflexivity| |]; cbn [map fst snd]; rewrite <- !app_assoc; reflexivity. }
  rewrite KE. pose proof (firsts_nodup (flat_map knownType rows)) as ND. fold (typesOf rows) in ND.
  destruct (existsb (str_eqb t) (typesOf rows)) eqn:X.
  - destruct (keyOf p l) as [key|].
    + rewrite set_map by exact ND. rewrite X. reflexivity.
    + f_equal. f_equal. apply map_ext. intros x. destruct (str_eqb x t) eqn:Q; [|reflexivity]. apply str_eqb_eq in Q. subst x. rewrite app_nil_r. reflexivity.
  - rewrite set_map by exact ND. rewrite X.
    assert (ND2 : NoDup (typesOf rows ++ [t])). { pose proof (firsts_nodup (flat_map knownType (rows ++ [lit "value" :: t :: s :: l :: row]))) as ND2. fold (typesOf (rows ++ [lit "value" :: t :: s :: l :: row])) in ND2. rewrite TY in ND2. exact ND2. }
    destruct (keyOf p l) as [key|].
    + rewrite (set_map (fun x => if str_eqb x t then [] else f x)) by exact ND2.
      assert (existsb (str_eqb t) (typesOf rows ++ [t]) = true) as -> by (apply existsb_str; apply in_or_app; right; left; reflexivity).
      f_equal. f_equal. apply map_ext. intros x. rewrite (NE eq_refl). destruct (str_eqb x t); reflexivity.
    + f_equal. f_equal. apply map_ext. intros x. rewrite (NE eq_refl). destruct (str_eqb x t) eqn:Q; reflexivity.
Qed.
Lemma generate_ok rows : Forall row_ok rows -> generateDictionaries rows = Ok (lastVersion rows, linesOf rows).
Proof.
  unfold generateDictionaries. induction rows as [|row rows IH] using rev_ind; intros H; [reflexivity|]. apply Forall_app in H. destruct H as [H1 H2]. inversion H2; subst.
  rewrite readRows_app, (IH H1). cbn [bind readRows]. rewrite readRow_step by assumption. reflexivity.
Qed.
(** one short row is enough *)
Lemma generate_short rows row rest : Forall row_ok rows -> ~ row_ok row -> generateDictionaries (rows ++ row :: rest) = Err IndexError.
Proof.
  intros H N. unfold generateDictionaries. rewrite readRows_app. pose proof (generate_ok rows H) as E. unfold generateDictionaries in E. rewrite E. cbn [bind readRows].
  assert (readRow row (lastVersion rows, linesOf rows) = Err IndexError) as ->; [|reflexivity].
  destruct row as [|k row]; [elim N; exact I|]. cbn [readRow]. destruct (str_eqb k (lit "ucd")) eqn:E1.
  - apply str_eqb_eq in E1. subst k. destruct row as [|v row]; [reflexivity|]. elim N. split; [cbn; lia|discriminate].
  - destruct (str_eqb k (lit "value")) eqn:E2.
    + apply str_eqb_eq in E2. subst k. destruct row as [|t [|s [|l row]]]; try reflexivity. elim N. split; [discriminate|cbn; lia].
    + elim N. split; intros ->; discriminate.
Qed.

(** ** The module written *)
(** the Python text of [name = {constant: "name", ...}] *)
Definition render (s : stmt) : str :=
  match s with
  | SAssign n (EDict l) =>
      n ++ lit " = {" ++ [10] ++
      join (lit "," ++ [10]) (map (fun '(k, v) => match k, v with EName a, EStr b => lit "    " ++ a ++ lit ": " ++ [34] ++ b ++ [34] | _, _ => [] end) l) ++
      [10] ++ lit "}" ++ [10; 10]
  | _ => []
  end.
Definition dictOf (t : str) (rows : list (list str)) : stmt :=
  SAssign (tp_name (prefixOf t) ++ lit "Names") (EDict (map (fun '(a, b) => (EName a, EStr b)) (entriesOf t (prefixOf t) rows))).
Lemma write_render rows : writeTypes (linesOf rows) = Ok (concat (map (fun t => render (dictOf t rows)) (typesOf rows))).
Proof.
  unfold linesOf. assert (K : forall t, In t (typesOf rows) -> dict_find prefixes t = Some (prefixOf t)).
  { intros t I. apply (proj1 (firsts_in _ _)) in I. apply in_flat_map in I. destruct I as [r [_ I]]. unfold knownType in I. destruct (valueOf r) as [[[t2 s2] l2]|]; [|destruct I].
    destruct (dict_find prefixes t2) eqn:P2; [|destruct I]. destruct I as [<-|[]]. unfold prefixOf. rewrite P2. reflexivity. }
  induction (typesOf rows) as [|t ts IH]; [reflexivity|]. cbn [map writeTypes concat]. unfold dict_get. rewrite (K t) by (left; reflexivity). cbn [bind].
  rewrite IH by (intros t' I; apply K; right; exact I). cbn [bind]. f_equal. unfold dictOf, render. rewrite map_map.
  assert (map (fun x => let '(k, v) := let '(a, b) := x in (EName a, EStr b) in match k, v with EName a, EStr b => lit "    " ++ a ++ lit ": " ++ [34] ++ b ++ [34] | _, _ => [] end) (entriesOf t (prefixOf t) rows)
    = map lineOf (entriesOf t (prefixOf t) rows)) as ->.
  { apply map_ext. intros [a b]. reflexivity. }
  rewrite <- !app_assoc. reflexivity.
Qed.

(** ** Running it *)
Definition constants (env : dict pval) (l : list (str * str)) (ks : list Z) : Prop := Forall2 (fun e k => dict_find env (fst e) = Some (VInt k)) l ks.
Definition filled (l : list (str * str)) (ks : list Z) : list (pval * pval) :=
  fold_left (fun d '(e, k) => vd_set d (VInt k) (VStr (snd e))) (combine l ks) [].
Lemma eval_dict env l ks : constants env l ks -> eval env (EDict (map (fun '(a, b) => (EName a, EStr b)) l)) = Ok (VDict (filled l ks)).
Proof.
  intros C. cbn [eval]. unfold filled. generalize (@nil (pval * pval)) as d. induction C as [|[a b] k l ks H C IH]; intros d; [reflexivity|].
  cbn [map eval combine fold_left fst snd bind] in *. rewrite H. cbn [bind hashable]. apply IH.
Qed.
Lemma vd_find_set d k v j : vd_find (vd_set d (VInt k) v) (VInt j) = if k =? j then Some v else vd_find d (VInt j).
Proof.
  induction d as [|[i w] d IH]; cbn [vd_set vd_find pval_eqb]; [reflexivity|]. destruct (pval_eqb i (VInt k)) eqn:E.
  - apply pval_eqb_eq in E. subst i. cbn [vd_find pval_eqb]. destruct (k =? j); reflexivity.
  - cbn [vd_find]. destruct (pval_eqb i (VInt j)) eqn:E2; [|exact IH]. apply pval_eqb_eq in E2. subst i. cbn [pval_eqb] in E. destruct (k =? j) eqn:Q; [|reflexivity].
    apply Z.eqb_eq in Q. subst j. rewrite Z.eqb_refl in E. discriminate.
Qed.
(** the last entry for a constant counts *)
Lemma filled_find l ks a b k : length l = length ks ->
  filled (l ++ [(a, b)]) (ks ++ [k]) = vd_set (filled l ks) (VInt k) (VStr b).
Proof.
  intros L. unfold filled. assert (combine (l ++ [(a, b)]) (ks ++ [k]) = combine l ks ++ [((a, b), k)]) as ->.
  { revert ks L. induction l as [|x l IH]; intros [|y ks] L; try discriminate; [reflexivity|]. cbn. rewrite IH by (cbn in L; lia). reflexivity. }
  rewrite fold_left_app. reflexivity.
Qed.
Lemma filled_get l ks : length l = length ks -> forall j, vd_find (filled l ks) (VInt j) =
  fold_left (fun acc '(e, k) => if k =? j then Some (VStr (snd e)) else acc) (combine l ks) None.
Proof.
  intros L j. unfold filled. assert (G : forall (c : list ((str * str) * Z)) d, vd_find (fold_left (fun d '(e, k) => vd_set d (VInt k) (VStr (snd e))) c d) (VInt j) =
    fold_left (fun acc '(e, k) => if k =? j then Some (VStr (snd e)) else acc) c (vd_find d (VInt j))).
  { induction c as [|[e k] c IH]; intros d; [reflexivity|]. cbn [fold_left]. rewrite IH, vd_find_set. reflexivity. }
  apply G.
Qed.
