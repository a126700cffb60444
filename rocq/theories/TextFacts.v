(** * Decimal numerals and trailing comments *)
From Coq Require Import ZArith List Bool Lia ZifyBool String.
From Verif Require Import Py Dict PyStr CharNames PyText HeaderFile HeaderFacts HeaderDecls UCDFacts.
Import ListNotations.
Open Scope Z_scope.
Local Notation length := List.length.
Local Notation concat := List.concat.

(** ** str(n) and int(s) *)
Lemma decDigits_ok fuel : forall n acc, 0 <= n < 2 ^ Z.of_nat fuel -> (0 < fuel)%nat ->
  exists ds, decDigits fuel n acc = ds ++ acc /\ numeral 10 ds n.
Proof.
  induction fuel as [|m IH]; intros n acc R F; [lia|]. cbn [decDigits]. destruct (n <? 10) eqn:E.
  - exists [48 + n]. split; [reflexivity|]. split; [discriminate|]. split; [constructor; [left; lia|constructor]|].
    cbn [fold_left]. unfold digit_value. replace (48 + n <=? 57) with true by lia. lia.
  - assert (P : 2 ^ Z.of_nat (S m) = 2 * 2 ^ Z.of_nat m) by (rewrite Nat2Z.inj_succ, Z.pow_succ_r by lia; lia).
    assert (D : 0 <= n / 10 < 2 ^ Z.of_nat m) by (split; [apply Z.div_pos; lia|apply Z.div_lt_upper_bound; lia]).
    assert (M : (0 < m)%nat) by (destruct m; [cbn in *; lia|lia]).
    destruct (IH (n / 10) (48 + n mod 10 :: acc) D M) as (ds & -> & N & A & V). exists (ds ++ [48 + n mod 10]). split; [rewrite <- app_assoc; reflexivity|].
    pose proof (Z.mod_pos_bound n 10 ltac:(lia)) as B. pose proof (Z.div_mod n 10 ltac:(lia)) as DM. split; [destruct ds; discriminate|]. split.
    + apply Forall_app. split; [exact A|]. constructor; [left; lia|constructor].
    + rewrite fold_left_app, V. cbn [fold_left]. unfold digit_value. replace (48 + n mod 10 <=? 57) with true by lia. lia.
Qed.
Lemma dec_numeral n : 0 <= n -> numeral 10 (dec n) n.
Proof.
  intros H. unfold dec. replace (n <? 0) with false by lia.
  destruct (decDigits_ok (S (Z.to_nat (Z.log2 n))) n []) as (ds & -> & N); [|lia|rewrite app_nil_r; exact N].
  split; [exact H|]. rewrite Nat2Z.inj_succ, Z2Nat.id by apply Z.log2_nonneg. destruct (Z.eq_dec n 0) as [->|NZ]; [reflexivity|].
  apply Z.log2_spec. lia.
Qed.
Lemma dec_neg n : n < 0 -> dec n = 45 :: dec (- n).
Proof. intros H. unfold dec. replace (n <? 0) with true by lia. replace (- n <? 0) with false by lia. reflexivity. Qed.
(** [int(str(n)) == n] *)
Lemma int_dec n : py_int (dec n) 10 = Ok n.
Proof.
  destruct (Z.lt_ge_cases n 0) as [L|L].
  - rewrite (dec_neg n L). destruct (dec_numeral (- n)) as (N & F & V); [lia|]. unfold py_int.
    assert (S : strip (45 :: dec (- n)) = 45 :: dec (- n)).
    { unfold strip. cbn [stripLeft]. change (isSpace 45) with false. cbv iota. cbn [rev].
      assert (E : stripLeft (rev (dec (- n)) ++ [45]) = rev (dec (- n)) ++ [45]).
      { destruct (rev (dec (- n))) as [|c r] eqn:E; [reflexivity|]. apply Forall_rev in F. rewrite E in F. inversion F as [|? ? D _]; subst. cbn [app stripLeft].
        replace (isSpace c) with false; [reflexivity|]. unfold isSpace. unfold is_digit in D. lia. }
      rewrite E, rev_app_distr, rev_involutive. reflexivity. }
    rewrite S. cbv zeta. change (45 =? 43) with false. change (45 =? 45) with true. cbv iota.
    rewrite dropPrefix_digits with (base := 10) by exact F. rewrite digitsLoop_ok by auto. rewrite V. cbn. f_equal. lia.
  - apply py_int_numeral; [left; reflexivity|]. apply dec_numeral. exact L.
Qed.
Lemma evalName_dec n names : evalName (dec n) names = Ok n.
Proof.
  assert (T : trim (dec n) = dec n /\ starts (lit "0x") (dec n) = false).
  { assert (G : forall s, s <> [] -> Forall (fun c => c = 45 \/ 48 <= c <= 57) s -> trim s = s /\ starts (lit "0x") s = false).
    { intros s N F. assert (S : forall t, Forall (fun c => c = 45 \/ 48 <= c <= 57) t -> lstrip t = t).
      { intros t Ft. apply lstrip_id. destruct Ft as [|c r D _]; [exact I|]. cbn. unfold uSpace. lia. }
      split.
      - unfold trim. rewrite (S s F), (S (rev s)), rev_involutive; [reflexivity|]. apply Forall_rev. exact F.
      - change (lit "0x") with [48; 120]. destruct F as [|c r D F]; [reflexivity|]. cbn [starts]. destruct (48 =? c); [|reflexivity].
        destruct F as [|d r D2 F]; [reflexivity|]. replace (120 =? d) with false by lia. reflexivity. }
    assert (H : forall m, 0 <= m -> dec m <> [] /\ Forall (fun c => c = 45 \/ 48 <= c <= 57) (dec m)).
    { intros m P. destruct (dec_numeral m P) as (N & F & _). split; [exact N|]. eapply Forall_impl; [|exact F]. intros c [D|[D _]]; [right; exact D|discriminate]. }
    apply G.
    - destruct (Z.lt_ge_cases n 0) as [L|L]; [rewrite (dec_neg n L); discriminate|apply H; exact L].
    - destruct (Z.lt_ge_cases n 0) as [L|L]; [rewrite (dec_neg n L)|apply H; exact L]. constructor; [left; reflexivity|]. apply H. lia. }
  unfold evalName. destruct T as [-> ->]. rewrite int_dec. reflexivity.
Qed.

(** ** Trailing comments *)
Lemma search_none m s : (forall r, m r <> None -> exists t, r = 47 :: t) -> ~ In 47 s -> search m s = None.
Proof.
  intros M. induction s as [|c s IH]; intros N; cbn [search].
  - destruct (m []) eqn:E; [|reflexivity]. destruct (M []) as [t T]; [congruence|discriminate].
  - destruct (m (c :: s)) eqn:E.
    + destruct (M (c :: s)) as [t T]; [congruence|]. inversion T; subst. elim N. left. reflexivity.
    + rewrite IH; [reflexivity|]. intros I. apply N. right. exact I.
Qed.
Lemma search_skip m a s : (forall r, m r <> None -> exists t, r = 47 :: t) -> ~ In 47 a ->
  search m (a ++ s) = match search m s with Some (b, g) => Some (a ++ b, g) | None => None end.
Proof.
  intros M. induction a as [|c a IH]; intros N; cbn [app].
  - destruct (search m s) as [[b g]|]; reflexivity.
  - cbn [search]. destruct (m (c :: a ++ s)) eqn:E.
    + destruct (M (c :: a ++ s)) as [t T]; [congruence|]. inversion T; subst. elim N. left. reflexivity.
    + rewrite IH by (intros I; apply N; right; exact I). destruct (search m s) as [[b g]|]; reflexivity.
Qed.
Lemma search_here m s g : m s = Some g -> search m s = Some ([], g).
Proof. intros E. destruct s; cbn [search]; rewrite E; reflexivity. Qed.
Lemma cMatch_slash r : cMatch r <> None -> exists t, r = 47 :: t.
Proof. unfold cMatch. change (lit "/*") with [47; 42]. destruct r as [|c r]; [cbn; congruence|]. cbn [starts]. destruct (47 =? c) eqn:E; [apply Z.eqb_eq in E; subst c; eauto|congruence]. Qed.
Lemma eolMatch_slash r : eolMatch r <> None -> exists t, r = 47 :: t.
Proof. unfold eolMatch. change (lit "//") with [47; 47]. destruct r as [|c r]; [cbn; congruence|]. cbn [starts]. destruct (47 =? c) eqn:E; [apply Z.eqb_eq in E; subst c; eauto|congruence]. Qed.
Lemma no_comment s : ~ In 47 s -> getTrailingComment s = (s, []).
Proof.
  intros N. unfold getTrailingComment. rewrite (search_none cMatch s cMatch_slash N), (search_none eolMatch s eolMatch_slash N). reflexivity.
Qed.
(** the text ends before the first "*/" *)
Definition unclosed (c : str) : Prop := forall a b, c ++ lit "*" <> a ++ lit "*/" ++ b.
Lemma cut_close c r : unclosed c -> cut (lit "*/") (c ++ lit "*/" ++ r) = Some (c, r).
Proof.
  induction c as [|x c IH]; intros U.
  - reflexivity.
  - cbn [app cut]. destruct (starts (lit "*/") (x :: c ++ lit "*/" ++ r)) eqn:E.
    + exfalso. change (lit "*/") with [42; 47] in E. cbn [starts] in E. destruct (42 =? x) eqn:X; [|discriminate]. apply Z.eqb_eq in X. subst x.
      destruct c as [|y c]; [discriminate|]. cbn [app] in E. destruct (47 =? y) eqn:Y; [|discriminate]. apply Z.eqb_eq in Y. subst y.
      apply (U [] (c ++ lit "*")). reflexivity.
    + rewrite IH; [reflexivity|]. intros a b Q. apply (U (x :: a) b). cbn [app]. f_equal. exact Q.
Qed.
Lemma shortGroup_close x c r : unclosed c -> shortGroup (x :: c ++ lit "*/" ++ r) = Some (x :: c).
Proof. intros U. cbn [shortGroup]. rewrite cut_close by exact U. reflexivity. Qed.
Lemma lstrip_sp sp s : spaces sp -> stops uSpace s -> lstrip (sp ++ s) = s.
Proof. intros H S. unfold lstrip. rewrite span_intro by assumption. reflexivity. Qed.
Lemma trim_right code sp : trim code = code -> spaces sp -> trim (code ++ sp) = code.
Proof.
  intros T S. destruct code as [|c code].
  - cbn [app]. unfold trim. pose proof (lstrip_sp sp [] S I) as E. rewrite app_nil_r in E. rewrite E. reflexivity.
  - pose proof (trim_stops (c :: code)) as ST. rewrite T in ST. unfold trim in *. cbn [app]. rewrite (lstrip_id (c :: code ++ sp)) by exact ST.
    rewrite (lstrip_id (c :: code)) in T by exact ST. change (c :: code ++ sp) with ((c :: code) ++ sp). rewrite rev_app_distr.
    assert (SR : spaces (rev sp)). { unfold spaces in *. apply forallb_forall. intros x I. rewrite forallb_forall in S. apply S. apply in_rev. exact I. }
    assert (E : lstrip (rev (c :: code)) = rev (c :: code)). { rewrite <- (rev_involutive (lstrip _)). rewrite T. reflexivity. }
    rewrite lstrip_sp; [apply rev_involutive|exact SR|]. rewrite <- E. apply lstrip_stops.
Qed.
(** code, then a comment "/* .. */" or "/** .. */"; whatever follows is dropped *)
Lemma trailing_comment code sp star c0 c rest : trim code = code -> ~ In 47 code -> spaces sp -> c0 <> 42 -> unclosed c -> (star = [] \/ star = lit "*") ->
  getTrailingComment (code ++ sp ++ lit "/*" ++ star ++ c0 :: c ++ lit "*/" ++ rest) = (code, c0 :: c).
Proof.
  intros T N S C U ST. unfold getTrailingComment. rewrite app_assoc. rewrite search_skip; [|exact cMatch_slash|].
  2: { intros I. apply in_app_or in I. destruct I as [I|I]; [contradiction|]. unfold spaces in S. rewrite forallb_forall in S. specialize (S 47 I). discriminate. }
  assert (E : cMatch (lit "/*" ++ star ++ c0 :: c ++ lit "*/" ++ rest) = Some (c0 :: c)).
  { unfold cMatch. rewrite starts_app. change 2%nat with (length (lit "/*")). rewrite skipn_app_len. destruct ST as [->| ->].
    - cbn [app]. change (lit "*") with [42]. cbn [starts]. destruct (42 =? c0) eqn:Q; [apply Z.eqb_eq in Q; congruence|]. apply shortGroup_close. exact U.
    - rewrite starts_app. change 1%nat with (length (lit "*")). rewrite skipn_app_len. rewrite shortGroup_close by exact U. reflexivity. }
  change (lit "/*" ++ star ++ c0 :: c ++ lit "*/" ++ rest) with (47 :: 42 :: star ++ c0 :: c ++ lit "*/" ++ rest) in *. cbn [search]. rewrite E. rewrite app_nil_r.
  rewrite trim_right by assumption. reflexivity.
Qed.
(** code, then a comment to the end of the line *)
Lemma line_comment code sp sp2 c : trim code = code -> ~ In 47 code -> spaces sp -> spaces sp2 -> c <> [] -> stops uSpace c -> ~ In 42 c -> ~ In 36 c ->
  getTrailingComment (code ++ sp ++ lit "//" ++ sp2 ++ c) = (code, c).
Proof.
  intros T N S S2 C0 C N42 N36. unfold getTrailingComment.
  assert (P : ~ In 47 (code ++ sp)).
  { intros I. apply in_app_or in I. destruct I as [I|I]; [contradiction|]. unfold spaces in S. rewrite forallb_forall in S. specialize (S 47 I). discriminate. }
  rewrite app_assoc. rewrite (search_skip cMatch _ _ cMatch_slash P), (search_skip eolMatch _ _ eolMatch_slash P).
  assert (Z : forall s, ~ In 42 s -> search cMatch s = None).
  { induction s as [|x s IH]; intros M; [reflexivity|]. cbn [search]. assert (cMatch (x :: s) = None) as ->.
    { unfold cMatch. change (lit "/*") with [47; 42]. cbn [starts]. destruct (47 =? x); [|reflexivity]. destruct s as [|y s]; [reflexivity|]. destruct (42 =? y) eqn:Q; [|reflexivity].
      apply Z.eqb_eq in Q. subst y. elim M. right. left. reflexivity. }
    rewrite IH; [reflexivity|]. intros I. apply M. right. exact I. }
  rewrite Z.
  2: { intros I. apply in_app_or in I. destruct I as [I|I]; [cbn in I; destruct I as [I|[I|[]]]; discriminate|]. apply in_app_or in I. destruct I as [I|I]; [|contradiction].
       unfold spaces in S2. rewrite forallb_forall in S2. specialize (S2 42 I). discriminate. }
  assert (E : eolMatch (lit "//" ++ sp2 ++ c) = Some c).
  { unfold eolMatch. rewrite starts_app. change 2%nat with (length (lit "//")). rewrite skipn_app_len. rewrite lstrip_sp by assumption. destruct c as [|x c]; [contradiction|].
    destruct (existsb (Z.eqb 36) (x :: c)) eqn:Q; [|reflexivity]. apply existsb_exists in Q. destruct Q as [y [I Q]]. apply Z.eqb_eq in Q. subst y. contradiction. }
  rewrite (search_here _ _ _ E). rewrite app_nil_r. rewrite trim_right by assumption. reflexivity.
Qed.
