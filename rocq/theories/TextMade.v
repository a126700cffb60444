(** * What the builder writes is made of what it has read and of ASCII *)
From Coq Require Import ZArith List Bool Lia ZifyBool String.
From Verif Require Import Py Dict PyStr Utilities CharNames PyText ModuleBuilder HeaderFile BuilderArgs CsvReader Build.
Import ListNotations.
Open Scope string_scope.
Open Scope list_scope.
Open Scope Z_scope.
Local Notation length := List.length.
Local Notation concat := List.concat.

Lemma ok_eq {A} (a b : A) : Ok a = Ok b -> a = b.
Proof. congruence. Qed.
Lemma some_eq {A} (a b : A) : Some a = Some b -> a = b.
Proof. congruence. Qed.
Ltac inj1 E := first [apply ok_eq in E|apply some_eq in E]; rewrite <- E; clear E.
Lemma pair_eq {A B} (a c : A) (b d : B) : (a, b) = (c, d) -> a = c /\ b = d.
Proof. intros E. split; congruence. Qed.
Ltac inj2 E := try first [apply ok_eq in E|apply some_eq in E]; apply pair_eq in E as [<- <-].

Section Made.
  (** a class of characters that has all of ASCII *)
  Variable P : Z -> Prop.
  Hypothesis HA : forall c, 0 <= c < 0x80 -> P c.
  Local Notation ofP := (Forall P).

  (** ** Strings *)
  Lemma of_lit s : forallb (fun c => (0 <=? c) && (c <? 0x80)) s = true -> ofP s.
  Proof using HA. intros H. apply Forall_forall. intros c I. rewrite forallb_forall in H. specialize (H c I). apply HA. lia. Qed.
  Lemma of_app a b : ofP a -> ofP b -> ofP (a ++ b).
  Proof. intros A B. apply Forall_app. split; assumption. Qed.
  Lemma of_skipn n s : ofP s -> ofP (skipn n s).
  Proof. intros H. rewrite <- (firstn_skipn n s) in H. apply Forall_app in H. apply H. Qed.
  Lemma of_removelast s : ofP s -> ofP (removelast s).
  Proof.
    intros H. induction H as [|c s Hc H IH]; [constructor|]. cbn [removelast]. destruct s; [constructor|]. constructor; [exact Hc|exact IH].
  Qed.
  Lemma of_span p s a b : ofP s -> span p s = (a, b) -> ofP a /\ ofP b.
  Proof.
    intros H. revert a b. induction H as [|c s Hc H IH]; intros a b E; cbn [span] in E; [inj2 E; split; constructor|].
    destruct (p c); [|inj2 E; split; constructor; assumption]. destruct (span p s) as [x y]. destruct (IH x y eq_refl) as [X Y].
    inj2 E. split; [constructor; assumption|exact Y].
  Qed.
  Lemma of_cut p s a b : ofP s -> cut p s = Some (a, b) -> ofP a /\ ofP b.
  Proof.
    intros H. revert a b. induction H as [|c s Hc H IH]; intros a b E; cbn [cut] in E.
    - destruct (starts p []); [|discriminate]. inj2 E. split; [constructor|]. apply of_skipn. constructor.
    - destruct (starts p (c :: s)); [inj2 E; split; [constructor|apply of_skipn; constructor; assumption]|].
      destruct (cut p s) as [[x y]|]; [|discriminate]. destruct (IH x y eq_refl) as [X Y]. inj2 E. split; [constructor; assumption|exact Y].
  Qed.
  Lemma of_lstrip s : ofP s -> ofP (lstrip s).
  Proof. intros H. unfold lstrip. destruct (span uSpace s) as [a b] eqn:E. apply (of_span _ _ _ _ H E). Qed.
  Lemma of_rev s : ofP s -> ofP (rev s).
  Proof. apply Forall_rev. Qed.
  Lemma of_trim s : ofP s -> ofP (trim s).
  Proof. intros H. unfold trim. apply of_rev, of_lstrip, of_rev, of_lstrip, H. Qed.
  Lemma of_replace s x r : ofP s -> ofP r -> ofP (py_replace s x r).
  Proof.
    intros H R. unfold py_replace. induction H as [|c s Hc H IH]; [constructor|]. cbn [flat_map]. apply of_app; [|exact IH].
    destruct (c =? x); [exact R|constructor; [exact Hc|constructor]].
  Qed.
  Lemma of_join sep l : ofP sep -> Forall ofP l -> ofP (join sep l).
  Proof.
    intros S H. induction H as [|p l Hp H IH]; [constructor|]. cbn [join]. destruct l; [exact Hp|]. apply of_app; [exact Hp|]. apply of_app; [exact S|exact IH].
  Qed.
  Lemma of_upper s : ofP s -> ofP (upper s).
  Proof using HA. intros H. unfold upper. induction H as [|c s Hc H IH]; [constructor|]. cbn [map]. constructor; [|exact IH]. unfold upperChar. destruct ((97 <=? c) && (c <=? 122)) eqn:E; [apply HA; lia|exact Hc]. Qed.
  Lemma of_lower s : ofP s -> ofP (lower s).
  Proof using HA. intros H. unfold lower. induction H as [|c s Hc H IH]; [constructor|]. cbn [map]. constructor; [|exact IH]. unfold lowerChar. destruct ((65 <=? c) && (c <=? 90)) eqn:E; [apply HA; lia|exact Hc]. Qed.
  Lemma of_split fuel p s : ofP s -> Forall ofP (splitLoop fuel p s).
  Proof.
    revert s. induction fuel as [|n IH]; intros s H; cbn [splitLoop]; [repeat constructor; exact H|].
    destruct (cut p s) as [[a b]|] eqn:E; [|repeat constructor; exact H]. destruct (of_cut _ _ _ _ H E) as [A B]. constructor; [exact A|exact (IH b B)].
  Qed.
  Lemma of_digits fuel : forall n acc, 0 <= n -> ofP acc -> ofP (decDigits fuel n acc).
  Proof using HA.
    induction fuel as [|m IH]; intros n acc Hn H; cbn [decDigits]; [exact H|]. destruct (n <? 10) eqn:E; [constructor; [apply HA; lia|exact H]|].
    apply IH; [apply Z.div_pos; lia|]. constructor; [|exact H]. apply HA. pose proof (Z.mod_pos_bound n 10 ltac:(lia)). lia.
  Qed.
  Lemma of_dec n : ofP (dec n).
  Proof using HA. unfold dec. destruct (n <? 0) eqn:E; [constructor; [apply HA; lia|]|]; (apply of_digits; [lia|constructor]). Qed.
  Lemma of_universal s : ofP s -> ofP (universal s).
  Proof using HA.
    assert (G : forall n s, (length s <= n)%nat -> ofP s -> ofP (universal s)); [|intros H; exact (G (length s) s (le_n _) H)].
    induction n as [|n IH]; intros t L H; (destruct t as [|c r]; [constructor|]); cbn [List.length] in L; [lia|]. apply Forall_cons_iff in H as [Hc Hr].
    cbn [universal]. destruct (c =? 13); [|constructor; [exact Hc|apply IH; [lia|exact Hr]]]. constructor; [apply HA; lia|].
    destruct r as [|d r']; [constructor|]. pose proof Hr as Hr'. apply Forall_cons_iff in Hr' as [_ Hr']. cbn [List.length] in L.
    destruct (d =? 10); [apply IH; [lia|exact Hr']|apply IH; [cbn [List.length]; lia|exact Hr]].
  Qed.
  Lemma of_lines s : forall cur, ofP s -> ofP cur -> Forall ofP (linesAfter s cur).
  Proof.
    induction s as [|c s IH]; intros cur H C; cbn [linesAfter].
    - destruct cur; [constructor|]. constructor; [exact C|constructor].
    - apply Forall_cons_iff in H as [Hc H]. assert (C' : ofP (cur ++ [c])) by (apply of_app; [exact C|constructor; [exact Hc|constructor]]).
      destruct (c =? 10); [constructor; [exact C'|apply IH; [exact H|constructor]]|apply IH; [exact H|exact C']].
  Qed.
  Lemma of_textLines s : ofP s -> Forall ofP (textLines s).
  Proof. intros H. apply of_lines; [exact H|constructor]. Qed.

  (** ** ModuleBuilder *)
  Lemma of_findFirst m s g : (forall t h, ofP t -> m t = Some h -> ofP h) -> ofP s -> findFirst m s = Ok g -> ofP g.
  Proof.
    intros M H. induction H as [|c s Hc H IH]; cbn [findFirst]; intros E.
    - destruct (m []) as [h|] eqn:Q; [|discriminate]. assert (h = g) by congruence. subst h. exact (M [] g (Forall_nil _) Q).
    - destruct (m (c :: s)) as [h|] eqn:Q; [|exact (IH E)]. assert (h = g) by congruence. subst h. exact (M _ g (Forall_cons _ Hc H) Q).
  Qed.
  Lemma of_lazyGroup close s a b : ofP s -> lazyGroup close s = Some (a, b) -> ofP a /\ ofP b.
  Proof.
    intros H E. unfold lazyGroup in E. destruct H as [|c s Hc H]; [discriminate|]. destruct (cut close s) as [[x y]|] eqn:Q; [|discriminate].
    destruct (of_cut _ _ _ _ H Q) as [X Y]. inj2 E. split; [constructor; assumption|exact Y].
  Qed.
  Lemma of_scalar source name g : ofP source -> getScalarDeclaration source name = Ok g -> ofP g.
  Proof.
    intros H. apply of_findFirst; [|exact H]. intros t h T E. unfold scalarMatch in E. destruct (starts (name ++ lit "=") t); [|discriminate].
    destruct (span _ (skipn (length (name ++ lit "=")) t)) as [l r] eqn:S. destruct (of_span _ _ _ _ (of_skipn _ _ T) S) as [L _].
    destruct (cut (lit ";") (rev l)) as [[x y]|] eqn:Q; [|discriminate]. destruct (of_cut _ _ _ _ (of_rev _ L) Q) as [_ Y].
    destruct y as [|z y]; [discriminate|]. assert (rev (z :: y) = h) by congruence. subst h. apply of_rev, Y.
  Qed.
  Lemma of_array source name g : ofP source -> getArrayDeclaration source name = Ok g -> ofP g.
  Proof.
    intros H. apply of_findFirst; [|exact H]. intros t h T E. unfold arrayMatch in E. destruct (starts (name ++ lit "[") t); [|discriminate].
    destruct (lazyGroup (lit "]={") _) as [[x r]|] eqn:Q; [|discriminate]. destruct (of_lazyGroup _ _ _ _ (of_skipn _ _ T) Q) as [_ R].
    destruct (lazyGroup (lit "};") r) as [[y z]|] eqn:Q2; [|discriminate]. destruct (of_lazyGroup _ _ _ _ R Q2) as [Y _]. congruence.
  Qed.
  Lemma of_props source name g : ofP source -> getPropsDeclaration source name = Ok g -> ofP g.
  Proof.
    intros H. apply of_findFirst; [|exact H]. intros t h T E. unfold propsMatch in E. destruct (starts (name ++ lit "={" ++ [10]) t); [|discriminate].
    destruct (lazyGroup ([10] ++ lit "};") _) as [[x r]|] eqn:Q; [|discriminate]. destruct (of_lazyGroup _ _ _ _ (of_skipn _ _ T) Q) as [X _]. congruence.
  Qed.
  Lemma of_trie props g : ofP props -> findFirst trieMatch props = Ok g -> ofP g.
  Proof.
    intros H. apply of_findFirst; [|exact H]. intros t h T E. unfold trieMatch in E. destruct (starts (lit "{" ++ [10]) t); [|discriminate].
    destruct (lazyGroup (lit "}") (skipn 2 t)) as [[x r]|] eqn:Q; [|discriminate]. destruct (of_lazyGroup _ _ _ _ (of_skipn 2 _ T) Q) as [X _]. congruence.
  Qed.
  Lemma of_arrayText name array : ofP name -> ofP array -> ofP (arrayText name array).
  Proof using HA.
    intros N A. unfold arrayText. set (final := if existsb (Z.eqb 10) array then [10] else []).
    assert (F : ofP final) by (subst final; apply of_lit; destruct (existsb (Z.eqb 10) array); reflexivity).
    set (body := if ends [10] array then removelast array else array). assert (B : ofP body) by (subst body; destruct (ends [10] array); [apply of_removelast, A|exact A]).
    apply of_app; [exact N|]. apply of_app; [apply of_lit; reflexivity|]. apply of_app; [|apply of_app; [exact F|apply of_app; apply of_lit; reflexivity]].
    destruct final; [exact B|]. apply of_replace; [exact B|apply of_lit; reflexivity].
  Qed.
  Lemma of_trieLines (splits : list str) (prefix : str) : Forall ofP splits -> ofP prefix -> forall names l, Forall (fun n => ofP (snd n)) names -> trieLines splits prefix names = Ok l -> Forall ofP l.
  Proof using HA.
    intros S X names. induction names as [|[i n] names IH]; intros l N E; cbn [trieLines] in E; [assert ([[]] = l) by congruence; subst l; repeat constructor|].
    apply Forall_cons_iff in N as [Nn N]. cbn [snd] in Nn. destruct (nth_error splits i) as [f|] eqn:Q; [|discriminate].
    destruct (trieLines splits prefix names) as [ls|]; [|discriminate]. cbn [bind] in E. inj1 E. constructor; [|exact (IH ls N eq_refl)].
    apply of_app; [exact X|]. apply of_app; [apply of_lit; reflexivity|]. apply of_app; [exact Nn|]. apply of_app; [apply of_lit; reflexivity|].
    apply of_trim. rewrite Forall_forall in S. apply S. eapply nth_error_In, Q.
  Qed.
  Lemma of_trieValues trie prefix l : ofP trie -> ofP prefix -> trieValues trie prefix = Ok l -> Forall ofP l.
  Proof using HA.
    intros T X. apply of_trieLines; [apply of_split, T|exact X|]. unfold trieNames. repeat (constructor; [apply of_lit; reflexivity|]). constructor.
  Qed.
  Definition asciiPart (p : part) : bool :=
    let a := forallb (fun c => (0 <=? c) && (c <? 0x80)) in match p with Array n | Scalar n => a n | PropsTrie n x | Trie n x => a n && a x end.
  Lemma of_partLines source p l : ofP source -> asciiPart p = true -> partLines source p = Ok l -> Forall ofP l.
  Proof using HA.
    intros S A E. destruct p as [n|n|n x|n x]; cbn [asciiPart] in A; cbn [partLines] in E.
    - unfold arrayToPython in E. destruct (getArrayDeclaration source n) as [g|] eqn:Q; [|discriminate]. cbn [bind] in E. inj1 E.
      constructor; [|constructor]. apply of_arrayText; [apply of_lit, A|exact (of_array _ _ _ S Q)].
    - unfold scalarToPython in E. destruct (getScalarDeclaration source n) as [g|] eqn:Q; [|discriminate]. cbn [bind] in E. inj1 E.
      constructor; [|constructor]. apply of_app; [apply of_lit, A|]. apply of_app; [apply of_lit; reflexivity|]. apply of_app; [exact (of_scalar _ _ _ S Q)|apply of_lit; reflexivity].
    - apply andb_true_iff in A as [_ A]. unfold trieValuesFromPropsDeclaration in E. destruct (getPropsDeclaration source n) as [g|] eqn:Q; [|discriminate]. cbn [bind] in E.
      destruct (findFirst trieMatch g) as [t|] eqn:T; [|discriminate]. cbn [bind] in E. exact (of_trieValues _ _ _ (of_trie _ _ (of_props _ _ _ S Q) T) (of_lit _ A) E).
    - apply andb_true_iff in A as [_ A]. unfold trieValuesFromTrieDeclaration in E. destruct (getPropsDeclaration source n) as [g|] eqn:Q; [|discriminate]. cbn [bind] in E.
      exact (of_trieValues _ _ _ (of_props _ _ _ S Q) (of_lit _ A) E).
  Qed.
  Lemma of_partsLines source ps : ofP source -> forallb asciiPart ps = true -> forall l, partsLines source ps = Ok l -> Forall ofP l.
  Proof using HA.
    intros S. induction ps as [|p ps IH]; intros A l E; cbn [partsLines] in E; [assert ([] = l) by congruence; subst l; constructor|].
    cbn [forallb] in A. apply andb_true_iff in A as [A B]. destruct (partLines source p) as [x|] eqn:Q; [|discriminate]. cbn [bind] in E.
    destruct (partsLines source ps) as [y|]; [|discriminate]. cbn [bind] in E. inj1 E. apply Forall_app. split; [exact (of_partLines _ _ _ S A Q)|exact (IH B y eq_refl)].
  Qed.

  (** ** Headers *)
  Lemma of_shortGroup s g : ofP s -> shortGroup s = Some g -> ofP g.
  Proof.
    intros H E. unfold shortGroup in E. destruct H as [|c s Hc H]; [discriminate|]. destruct (cut (lit "*/") s) as [[x y]|] eqn:Q; [|discriminate].
    destruct (of_cut _ _ _ _ H Q) as [X _]. inj1 E. constructor; assumption.
  Qed.
  Lemma of_cMatch s g : ofP s -> cMatch s = Some g -> ofP g.
  Proof.
    intros H E. unfold cMatch in E. destruct (starts (lit "/*") s); [|discriminate]. cbv zeta in E. pose proof (of_skipn 2 s H) as H2.
    destruct (if starts (lit "*") (skipn 2 s) then shortGroup (skipn 1 (skipn 2 s)) else None) as [h|] eqn:Q.
    - destruct (starts (lit "*") (skipn 2 s)); [|discriminate]. assert (h = g) by congruence. subst h. exact (of_shortGroup _ _ (of_skipn 1 _ H2) Q).
    - exact (of_shortGroup _ _ H2 E).
  Qed.
  Lemma of_eolMatch s g : ofP s -> eolMatch s = Some g -> ofP g.
  Proof.
    intros H E. unfold eolMatch in E. destruct (starts (lit "//") s); [|discriminate]. cbv zeta in E. pose proof (of_skipn 2 s H) as H2. pose proof (of_lstrip _ H2) as L.
    destruct (lstrip (skipn 2 s)) as [|x t].
    - pose proof (of_rev _ H2) as R. destruct (rev (skipn 2 s)) as [|c r]; [discriminate|]. inj1 E. apply Forall_cons_iff in R as [R _]. constructor; [exact R|constructor].
    - destruct (existsb (Z.eqb 36) (x :: t)); [discriminate|]. inj1 E. exact L.
  Qed.
  Lemma of_search m : (forall t h, ofP t -> m t = Some h -> ofP h) -> forall s a g, ofP s -> search m s = Some (a, g) -> ofP a /\ ofP g.
  Proof.
    intros M. induction s as [|c s IH]; intros a g H E; cbn [search] in E.
    - destruct (m []) as [h|] eqn:Q; [|discriminate]. inj2 E. split; [constructor|exact (M _ _ H Q)].
    - destruct (m (c :: s)) as [h|] eqn:Q; [inj2 E; split; [constructor|exact (M _ _ H Q)]|]. apply Forall_cons_iff in H as [Hc H].
      destruct (search m s) as [[x y]|]; [|discriminate]. destruct (IH x y H eq_refl) as [X Y]. inj2 E. split; [constructor; assumption|exact Y].
  Qed.
  Lemma of_trailing s a b : ofP s -> getTrailingComment s = (a, b) -> ofP a /\ ofP b.
  Proof.
    intros H E. unfold getTrailingComment in E. destruct (search cMatch s) as [[x g]|] eqn:Q.
    - destruct (of_search _ of_cMatch _ _ _ H Q) as [X G]. inj2 E. split; [apply of_trim, X|exact G].
    - destruct (search eolMatch s) as [[x g]|] eqn:Q2.
      + destruct (of_search _ of_eolMatch _ _ _ H Q2) as [X G]. inj2 E. split; [apply of_trim, X|exact G].
      + inj2 E. split; [exact H|constructor].
  Qed.
  Lemma of_nextLoop guard lines : Forall ofP lines -> forall c d m ml o rest, ofP ml -> nextLoop guard lines c d m ml = (o, rest) ->
    Forall ofP rest /\ match o with Some (l, k) => ofP l /\ ofP k | None => True end.
  Proof using HA.
    induction 1 as [|raw lines R H IH]; intros c d m ml o rest ML E; cbn [nextLoop] in E; [inj2 E; split; [constructor|exact I]|].
    destruct raw as [|x raw]; [inj2 E; split; [constructor; [constructor|exact H]|exact I]|].
    pose proof (of_trim _ R) as T. cbv zeta in E. destruct (trim (x :: raw)) as [|y t] eqn:TR; [exact (IH _ _ _ _ _ _ ML E)|]. clear TR. rename y into z. revert T E. generalize (z :: t). clear z t. intros line T E.
    repeat match type of E with
    | (if ?b then _ else _) = _ => destruct b
    end; try (exact (IH _ _ _ _ _ _ ML E)).
    all: try (refine (IH _ _ _ _ _ _ _ E); first [apply of_removelast, T|apply of_app; [exact ML|apply of_trim, of_removelast, T]]).
    all: injection E as E1 <-; subst o; split; [exact H|]; match goal with |- context [getTrailingComment ?p] => destruct (getTrailingComment p) as [l k] eqn:Q end.
    - exact (of_trailing _ _ _ (of_app _ _ ML T) Q).
    - exact (of_trailing _ _ _ T Q).
  Qed.
  Lemma of_nextLine guard lines o rest : Forall ofP lines -> nextLine guard lines = (o, rest) -> Forall ofP rest /\ match o with Some (l, k) => ofP l /\ ofP k | None => True end.
  Proof using HA. intros H. apply of_nextLoop; [exact H|constructor]. Qed.
  Lemma of_args s g r : ofP s -> HeaderFile.args s = Some (g, r) -> ofP g /\ ofP r.
  Proof using HA.
    intros H E. unfold HeaderFile.args in E. destruct (starts (lit "(") s); [|discriminate]. destruct (span wordChar (skipn 1 s)) as [a t] eqn:S1.
    destruct (of_span _ _ _ _ (of_skipn 1 _ H) S1) as [A T]. destruct a as [|c a]; [discriminate|]. destruct (starts (lit ")") t).
    - inj2 E. split; [apply of_app; [apply of_lit; reflexivity|]; apply of_app; [exact A|apply of_lit; reflexivity]|apply of_skipn, T].
    - destruct (starts (lit ",") t); [|discriminate]. destruct (span uSpace (skipn 1 t)) as [sp r1] eqn:S2. destruct (of_span _ _ _ _ (of_skipn 1 _ T) S2) as [SP R1].
      destruct (span wordChar r1) as [b r2] eqn:S3. destruct (of_span _ _ _ _ R1 S3) as [B R2]. destruct b as [|x b]; [discriminate|]. destruct (starts (lit ")") r2); [|discriminate].
      inj2 E. split; [|apply of_skipn, R2]. apply of_app; [apply of_lit; reflexivity|]. apply of_app; [exact A|]. apply of_app; [apply of_lit; reflexivity|].
      apply of_app; [exact SP|]. apply of_app; [exact B|apply of_lit; reflexivity].
  Qed.
  Lemma of_last s c r : ofP s -> rev s = c :: r -> ofP [c].
  Proof. intros H E. apply of_rev in H. rewrite E in H. apply Forall_cons_iff in H as [H _]. constructor; [exact H|constructor]. Qed.
  Lemma of_defineMatch s n v : ofP s -> defineMatch s = Some (n, v) -> ofP n /\ ofP v.
  Proof using HA.
    intros H E. unfold defineMatch in E. destruct (starts (lit "#define ") s); [|discriminate]. destruct (span wordChar (skipn 8 s)) as [a r] eqn:S1.
    destruct (of_span _ _ _ _ (of_skipn 8 _ H) S1) as [A R]. destruct a as [|c a]; [discriminate|].
    match type of E with (let '(_, _) := ?m in _) = _ => destruct m as [name r1] eqn:S2 end.
    assert (ofP name /\ ofP r1) as [N R1].
    { destruct (HeaderFile.args r) as [[g r2]|] eqn:Q; apply pair_eq in S2 as [<- <-]; [|split; assumption]. destruct (of_args _ _ _ R Q) as [G R2]. split; [apply (of_app (c :: a)); assumption|exact R2]. }
    destruct (span uSpace r1) as [sp w] eqn:S3. destruct (of_span _ _ _ _ R1 S3) as [SP W]. destruct w as [|x w].
    - destruct (rev sp) as [|y [|y' t]] eqn:Q; inj2 E; (split; [exact N|]); [constructor|constructor|exact (of_last _ _ _ SP Q)].
    - destruct sp; inj2 E; (split; [exact N|]); [constructor|exact W].
  Qed.
  Lemma of_defineSearch s n v : ofP s -> defineSearch s = Some (n, v) -> ofP n /\ ofP v.
  Proof using HA.
    intros H. induction H as [|c s Hc H IH]; intros E; cbn [defineSearch] in E.
    - destruct (defineMatch []) as [x|] eqn:Q; [|discriminate]. assert (x = (n, v)) by congruence. subst x. exact (of_defineMatch _ _ _ (Forall_nil _) Q).
    - destruct (defineMatch (c :: s)) as [x|] eqn:Q; [|exact (IH E)]. assert (x = (n, v)) by congruence. subst x. exact (of_defineMatch _ _ _ (Forall_cons _ Hc H) Q).
  Qed.
  Lemma of_enumEntry s n v : ofP s -> enumEntry s = Some (n, v) -> ofP n /\ ofP v.
  Proof.
    intros H E. unfold enumEntry in E. destruct (span _ s) as [x r] eqn:S1. destruct (of_span _ _ _ _ H S1) as [_ R].
    destruct (span wordChar r) as [name r1] eqn:S2. destruct (of_span _ _ _ _ R S2) as [N R1]. destruct name as [|c name]; [discriminate|].
    destruct (span uSpace r1) as [y r2] eqn:S3. destruct (of_span _ _ _ _ R1 S3) as [_ R2]. destruct (starts (lit "=") r2); [|inj2 E; split; [exact N|constructor]].
    destruct (span uSpace (skipn 1 r2)) as [sp r3] eqn:S4. destruct (of_span _ _ _ _ (of_skipn 1 _ R2) S4) as [SP R3].
    destruct (span _ r3) as [w r4] eqn:S5. destruct (of_span _ _ _ _ R3 S5) as [W _]. destruct w as [|z w].
    - destruct (rev sp) as [|q t] eqn:Q; inj2 E; (split; [exact N|]); [constructor|exact (of_last _ _ _ SP Q)].
    - inj2 E. split; [exact N|exact W].
  Qed.
  Lemma of_outputLine n v k : ofP n -> ofP v -> ofP k -> ofP (outputLine n v k).
  Proof using HA.
    intros N V K. unfold outputLine. apply of_app; [exact N|]. apply of_app; [apply of_lit; reflexivity|]. apply of_app; [exact V|].
    destruct k; [constructor|]. apply of_app; [apply of_lit; reflexivity|exact K].
  Qed.
  Lemma of_snoc l x : Forall ofP l -> ofP x -> Forall ofP (l ++ [x]).
  Proof. intros L X. apply Forall_app. split; [exact L|constructor; [exact X|constructor]]. Qed.
  Lemma of_enumLoop guard pyeval fuel : forall lines n vars out rest res, Forall ofP lines -> Forall ofP out -> enumLoop guard pyeval fuel lines n vars out = Ok (rest, res) ->
    Forall ofP rest /\ Forall ofP res.
  Proof using HA.
    induction fuel as [|m IH]; intros lines n vars out rest res L O E; cbn [enumLoop] in E; [discriminate|].
    destruct (nextLine guard lines) as [o r] eqn:Q. destruct (of_nextLine _ _ _ _ L Q) as [R K]. destruct o as [[eline comment]|]; [|inj2 E; split; assumption].
    destruct K as [K1 K2]. destruct (starts (lit "{") eline); [exact (IH _ _ _ _ _ _ R O E)|]. destruct (endOfEnum eline); [inj2 E; split; assumption|].
    destruct (enumEntry eline) as [[name value]|] eqn:Q2; [|discriminate]. destruct (of_enumEntry _ _ _ K1 Q2) as [N V]. cbv zeta in E.
    set (w := match value with [] => dec n | _ => value end) in *. assert (W : ofP w) by (subst w; destruct value; [apply of_dec|exact V]).
    destruct (pyeval w vars) as [iv|]; [|discriminate]. cbn [bind] in E. refine (IH _ _ _ _ _ _ R _ E). apply of_snoc; [exact O|apply of_outputLine; assumption].
  Qed.
  Lemma of_translateLoop guard pyeval ignore fuel : forall lines out res, Forall ofP lines -> Forall ofP out -> translateLoop guard pyeval ignore fuel lines out = Ok res -> Forall ofP res.
  Proof using HA.
    induction fuel as [|m IH]; intros lines out res L O E; cbn [translateLoop] in E; [discriminate|].
    destruct (nextLine guard lines) as [o r] eqn:Q. destruct (of_nextLine _ _ _ _ L Q) as [R K]. destruct o as [[line comment]|]; [|assert (out = res) by congruence; subst; exact O].
    destruct K as [K1 K2]. destruct (firstToken line) as [token|]; [|discriminate]. cbn [bind] in E. destruct (str_eqb token (lit "#define")).
    - destruct (defineSearch line) as [[name value]|] eqn:Q2; [|discriminate]. destruct (of_defineSearch _ _ _ K1 Q2) as [N V].
      destruct (existsb (str_eqb name) ignore); [exact (IH _ _ _ R O E)|]. destruct value as [|v value]; [exact (IH _ _ _ R O E)|].
      destruct (existsb (Z.eqb 40) name); [exact (IH _ _ _ R O E)|]. refine (IH _ _ _ R _ E). apply of_snoc; [exact O|apply of_outputLine; assumption].
    - destruct (str_eqb token (lit "enum") || (str_eqb token (lit "typedef") && typedefEnum line)); [|exact (IH _ _ _ R O E)].
      destruct (enumLoop guard pyeval m r 0 [] out) as [[r2 out2]|] eqn:Q2; [|discriminate]. cbn [bind] in E.
      destruct (of_enumLoop _ _ _ _ _ _ _ _ _ R O Q2) as [R2 O2]. exact (IH _ _ _ R2 O2 E).
  Qed.
  Lemma of_translate guard pyeval ignore lines res : Forall ofP lines -> translate guard pyeval ignore lines = Ok res -> Forall ofP res.
  Proof using HA. intros L. apply of_translateLoop; [exact L|constructor]. Qed.

  (** ** UCDReader *)
  Lemma of_fileLines s : ofP s -> Forall ofP (fileLines s).
  Proof using HA.
    assert (G : forall n s cur, (length s <= n)%nat -> ofP s -> ofP cur -> Forall ofP (linesFrom s cur)); [|intros H; exact (G (length s) s [] (le_n _) H (Forall_nil _))].
    induction n as [|n IH]; intros t cur L H C; (destruct t as [|c r]; [cbn [linesFrom]; destruct cur; constructor; [exact C|constructor]|]); cbn [List.length] in L; [lia|].
    apply Forall_cons_iff in H as [Hc Hr]. cbn [linesFrom]. destruct (c =? 10); [constructor; [apply of_app; [exact C|apply of_lit; reflexivity]|apply IH; [lia|exact Hr|constructor]]|].
    destruct (c =? 13); [|apply IH; [lia|exact Hr|apply of_app; [exact C|constructor; [exact Hc|constructor]]]].
    destruct r as [|d r']; [constructor; [apply of_app; [exact C|apply of_lit; reflexivity]|constructor]|]. pose proof Hr as Hr'. apply Forall_cons_iff in Hr' as [_ Hr']. cbn [List.length] in L.
    destruct (d =? 10); (constructor; [apply of_app; [exact C|apply of_lit; reflexivity]|]); [apply IH; [lia|exact Hr'|constructor]|apply IH; [cbn [List.length]; lia|exact Hr|constructor]].
  Qed.
  Definition ofReader (R : reader) : Prop := Forall ofP (r_fields R) /\ ofP (r_field R).
  Lemma of_save R st : ofReader R -> ofReader (saveField R st).
  Proof. intros [A B]. split; cbn [saveField r_fields r_field]; [apply of_snoc; assumption|constructor]. Qed.
  Lemma of_add R c st : P c -> ofReader R -> ofReader (addChar R c st).
  Proof. intros C [A B]. split; cbn [addChar r_fields r_field]; [exact A|apply of_app; [exact B|constructor; [exact C|constructor]]]. Qed.
  Lemma of_state R st : ofReader R -> ofReader (inState R st).
  Proof. intros [A B]. split; assumption. Qed.
  Lemma of_process R c R' : P c -> ofReader R -> processChar R c = Ok R' -> ofReader R'.
  Proof.
    intros C H. unfold processChar, startField. destruct (r_state R); repeat match goal with |- context [if ?b then _ else _] => destruct b end; intros E; try discriminate;
      assert (X := f_equal (fun r => match r with Ok x => x | Err _ => R end) E); cbv beta iota in X; subst R'; first [exact H|apply of_save, H|apply of_state, H|apply of_add; assumption].
  Qed.
  Lemma of_processChars line : ofP line -> forall R R', ofReader R -> processChars R line = Ok R' -> ofReader R'.
  Proof.
    induction 1 as [|c line C H IH]; intros R R' HR E; cbn [processChars] in E; [assert (R = R') by congruence; subst; exact HR|].
    destruct (c =? 0); [discriminate|]. destruct (processChar R c) as [R1|] eqn:Q; [|discriminate]. cbn [bind] in E. exact (IH R1 R' (of_process _ _ _ C HR Q) E).
  Qed.
  Lemma of_rowsFrom lines : Forall ofP lines -> forall R rows, ofReader R -> rowsFrom lines R = Ok rows -> Forall (Forall ofP) rows.
  Proof.
    induction 1 as [|line lines L H IH]; intros R rows HR E; cbn [rowsFrom] in E.
    - destruct (match r_field R with [] => match r_state R with IN_QUOTED_FIELD => true | _ => false end | _ => true end).
      + assert ([r_fields (saveField R START_RECORD)] = rows) by congruence. subst rows. constructor; [apply (of_save R START_RECORD HR)|constructor].
      + assert ([] = rows) by congruence. subst rows. constructor.
    - unfold processLine in E. destruct (processChars R line) as [R1|] eqn:Q; [|discriminate]. cbn [bind] in E. pose proof (of_processChars _ L _ _ HR Q) as H1.
      assert (H2 : ofReader (processEol R1)) by (unfold processEol; destruct (r_state R1); first [exact H1|apply of_save, H1|apply of_state, H1]).
      set (R2 := processEol R1) in *. destruct (r_state R2); try exact (IH _ _ H2 E).
      destruct (rowsFrom lines reset) as [rs|] eqn:Q2; [|discriminate]. cbn [bind] in E. assert (r_fields R2 :: rs = rows) by congruence. subst rows.
      constructor; [apply H2|]. refine (IH reset rs _ Q2). split; constructor.
  Qed.
  Lemma of_csvRows text rows : ofP text -> csvRows text = Ok rows -> Forall (Forall ofP) rows.
  Proof using HA.
    intros T E. unfold csvRows in E. destruct (rowsFrom (fileLines text) reset) as [rs|] eqn:Q; [|discriminate]. cbn [bind] in E. destruct (short rs); [|discriminate].
    assert (rs = rows) by congruence. subst rs. refine (of_rowsFrom _ (of_fileLines _ T) _ _ _ Q). split; constructor.
  Qed.
  Lemma of_cell (row : list str) n s : Forall ofP row -> cell row n = Ok s -> ofP s.
  Proof. intros R E. unfold cell in E. destruct (nth_error row n) as [x|] eqn:Q; [|discriminate]. assert (x = s) by congruence. subst x. rewrite Forall_forall in R. apply R. eapply nth_error_In, Q. Qed.
  (** the prefixes are ASCII *)
  Definition asciiPrefix (p : typePrefix) : bool :=
    let a := forallb (fun c => (0 <=? c) && (c <? 0x80)) in a (tp_prefix p) && a (tp_name p) && forallb (fun '(_, v) => a v) (tp_map p).
  Lemma prefixes_ascii : forallb (fun '(_, p) => asciiPrefix p) prefixes = true.
  Proof. vm_compute. reflexivity. Qed.
  Lemma find_in {V} (d : dict V) k v : dict_find d k = Some v -> exists k', In (k', v) d.
  Proof.
    induction d as [|[k' v'] d IH]; cbn [dict_find]; [discriminate|]. destruct (str_eqb k' k) eqn:Q; [intros E; exists k'; left; congruence|].
    intros E. destruct (IH E) as (x & I). exists x. right. exact I.
  Qed.
  Lemma prefix_ascii t p : dict_find prefixes t = Some p -> asciiPrefix p = true.
  Proof.
    intros E. destruct (find_in _ _ _ E) as (k & I). pose proof prefixes_ascii as H. rewrite forallb_forall in H. exact (H _ I).
  Qed.
  Lemma of_key p long k : asciiPrefix p = true -> ofP long -> keyOf p long = Some k -> ofP k.
  Proof using HA.
    intros A L E. unfold keyOf in E. destruct (dict_find (tp_map p) long) as [m|] eqn:Q; [|assert (upper long = k) by congruence; subst k; apply of_upper, L].
    destruct m as [|c m]; [discriminate|]. assert (c :: m = k) by congruence. subst k. destruct (find_in _ _ _ Q) as (x & I). unfold asciiPrefix in A.
    apply andb_true_iff in A as [_ A]. rewrite forallb_forall in A. apply of_lit. exact (A _ I).
  Qed.
  Lemma of_dictLine p k s : asciiPrefix p = true -> ofP k -> ofP s -> ofP (dictLine p k s).
  Proof using HA.
    intros A K S. unfold asciiPrefix in A. apply andb_true_iff in A as [A _]. apply andb_true_iff in A as [A _]. unfold dictLine.
    apply of_app; [apply of_lit; reflexivity|]. apply of_app; [apply of_lit, A|]. apply of_app; [apply of_lit; reflexivity|]. apply of_app; [exact K|].
    apply of_app; [apply of_lit; reflexivity|]. apply of_app; [apply of_lit; reflexivity|]. apply of_app; [|apply of_lit; reflexivity].
    unfold applyShort. destruct (tp_fun p); [apply of_lower, S|exact S|apply of_replace; [exact S|apply of_lit; reflexivity]].
  Qed.
  Definition ofLines (d : dict (list str)) : Prop := Forall (fun e => Forall ofP (snd e)) d.
  Lemma of_set d k v : ofLines d -> Forall ofP v -> ofLines (dict_set d k v).
  Proof.
    intros D V. induction D as [|[k' v'] d H D IH]; cbn [dict_set]; [constructor; [exact V|constructor]|]. destruct (str_eqb k' k); constructor; assumption.
  Qed.
  Lemma of_find d k v : ofLines d -> dict_find d k = Some v -> Forall ofP v.
  Proof. intros D E. destruct (find_in _ _ _ E) as (x & I). unfold ofLines in D. rewrite Forall_forall in D. exact (D _ I). Qed.
  Definition ofState (st : option str * dict (list str)) : Prop := match fst st with Some v => ofP v | None => True end /\ ofLines (snd st).
  Lemma of_readRow (row : list str) st st' : Forall ofP row -> ofState st -> readRow row st = Ok st' -> ofState st'.
  Proof using HA.
    intros R S E. unfold readRow in E. destruct st as [version lines]. destruct row as [|kind row]; [assert ((version, lines) = st') by congruence; subst; exact S|].
    destruct (str_eqb kind (lit "ucd")).
    - destruct (cell (kind :: row) 1) as [v|] eqn:Q; [|discriminate]. cbn [bind] in E. inj1 E. split; [exact (of_cell _ _ _ R Q)|apply S].
    - destruct (str_eqb kind (lit "value")); [|assert ((version, lines) = st') by congruence; subst; exact S].
      destruct (cell (kind :: row) 1) as [type|]; [|discriminate]. cbn [bind] in E. destruct (cell (kind :: row) 2) as [shortName|] eqn:Q2; [|discriminate]. cbn [bind] in E.
      destruct (cell (kind :: row) 3) as [longName|] eqn:Q3; [|discriminate]. cbn [bind] in E. destruct (dict_find prefixes type) as [p|] eqn:QP; [|assert ((version, lines) = st') by congruence; subst; exact S].
      pose proof (prefix_ascii _ _ QP) as A. destruct S as [SV SL]. cbn [fst snd] in SV, SL. cbv zeta in E.
      set (old := match dict_find lines type with Some l => l | None => [] end) in *. assert (O : Forall ofP old) by (subst old; destruct (dict_find lines type) as [l|] eqn:Q; [exact (of_find _ _ _ SL Q)|constructor]).
      set (lines' := match dict_find lines type with Some _ => lines | None => dict_set lines type [] end) in *.
      assert (L' : ofLines lines') by (subst lines'; destruct (dict_find lines type); [exact SL|apply of_set; [exact SL|constructor]]).
      destruct (keyOf p longName) as [key|] eqn:QK; inj1 E; (split; [exact SV|]); cbn [snd]; [|exact L'].
      apply of_set; [exact L'|]. apply of_snoc; [exact O|]. apply of_dictLine; [exact A|exact (of_key _ _ _ A (of_cell _ _ _ R Q3) QK)|exact (of_cell _ _ _ R Q2)].
  Qed.
  Lemma of_readRows (rows : list (list str)) : Forall (Forall ofP) rows -> forall st st', ofState st -> readRows rows st = Ok st' -> ofState st'.
  Proof using HA.
    induction 1 as [|row rows R H IH]; intros st st' S E; cbn [readRows] in E; [assert (st = st') by congruence; subst; exact S|].
    destruct (readRow row st) as [s1|] eqn:Q; [|discriminate]. cbn [bind] in E. exact (IH s1 st' (of_readRow _ _ _ R S Q) E).
  Qed.
  Lemma of_generate (rows : list (list str)) st : Forall (Forall ofP) rows -> generateDictionaries rows = Ok st -> ofState st.
  Proof using HA. intros R. apply of_readRows; [exact R|]. split; [exact I|constructor]. Qed.
  Lemma of_writeTypes d : ofLines d -> forall s, writeTypes d = Ok s -> ofP s.
  Proof using HA.
    induction 1 as [|[t v] d H D IH]; intros s E; cbn [writeTypes] in E; [assert ([] = s) by congruence; subst s; constructor|].
    destruct (dict_get prefixes t) as [p|] eqn:Q; [|discriminate]. cbn [bind] in E. destruct (writeTypes d) as [r|]; [|discriminate]. cbn [bind] in E.
    assert (A : asciiPrefix p = true) by (unfold dict_get in Q; destruct (dict_find prefixes t) as [q|] eqn:F; [|discriminate]; assert (q = p) by congruence; subst q; exact (prefix_ascii _ _ F)).
    unfold asciiPrefix in A. apply andb_true_iff in A as [A _]. apply andb_true_iff in A as [_ A]. inj1 E. cbn [snd] in H.
    apply of_app; [apply of_lit, A|]. apply of_app; [apply of_lit; reflexivity|]. apply of_app; [apply of_lit; reflexivity|].
    apply of_app; [apply of_join; [apply of_lit; reflexivity|exact H]|]. apply of_app; [apply of_lit; reflexivity|]. apply of_app; [apply of_lit; reflexivity|].
    apply of_app; [apply of_lit; reflexivity|exact (IH r eq_refl)].
  Qed.
  Lemma of_writeFile pre d s : Forall ofP pre -> ofLines d -> writeFile pre d = Ok s -> ofP s.
  Proof using HA.
    intros R D E. unfold writeFile in E. destruct (writeTypes d) as [t|] eqn:Q; [|discriminate]. cbn [bind] in E. inj1 E. apply of_app; [|exact (of_writeTypes _ D _ Q)].
    clear - R HA. induction R as [|l pre L R IH]; [constructor|]. cbn [map concat]. apply of_app; [apply of_app; [exact L|apply of_lit; reflexivity]|exact IH].
  Qed.
  Lemma of_heading now tool out from : (forall n, ofP (now n)) -> ofP tool -> ofP out -> ofP from -> Forall ofP (heading now tool out from).
  Proof using HA.
    intros N T O F. unfold heading. constructor; [apply of_lit; reflexivity|]. constructor; [|constructor; [|constructor; [apply of_lit; reflexivity|constructor]]].
    - apply of_app; [exact O|]. apply of_app; [apply of_lit; reflexivity|]. apply of_app; [exact F|]. apply of_app; apply of_lit; reflexivity.
    - apply of_app; [apply of_lit; reflexivity|]. apply of_app; [exact T|]. apply of_app; [apply of_lit; reflexivity|apply N].
  Qed.
End Made.
