(** * Reading the text of a module: facts *)
From Coq Require Import ZArith List Bool Lia ZifyBool String.
From Verif Require Import Py Dict Utilities CharNames PyText PyModule PyParse HeaderFacts ModuleBuilder.
Import ListNotations.
Open Scope string_scope.
Open Scope list_scope.
Open Scope Z_scope.
Local Notation length := List.length.

(** ** The lexer needs no more fuel than there are characters *)
Lemma span_length p s : (length (snd (span p s)) <= length s)%nat.
Proof. induction s as [|c s IH]; [cbn; lia|]. cbn [span]. destruct (p c); [|cbn; lia]. destruct (span p s) as [a b]. cbn [snd length] in *. lia. Qed.
Lemma span_word_length s c r a r' : s = c :: r -> wordChar c = true -> span wordChar s = (a, r') -> (length r' <= length r)%nat.
Proof.
  intros -> W E. cbn [span] in E. rewrite W in E. pose proof (span_length wordChar r) as L. destruct (span wordChar r) as [x y]. injection E as <- <-. exact L.
Qed.
Lemma tripleEnd_eq c r : tripleEnd (c :: r) =
  if (c =? 34) && match r with x :: y :: _ => (x =? 34) && (y =? 34) | _ => false end then Some ([], skipn 2 r)
  else match r with
  | [] => None
  | x :: r' =>
      if c =? 92 then match tripleEnd r' with Some (a, b) => Some (92 :: x :: a, b) | None => None end
      else match tripleEnd r with Some (a, b) => Some (c :: a, b) | None => None end
  end.
Proof. reflexivity. Qed.
Lemma triple_length_aux n : forall s a r, (length s <= n)%nat -> tripleEnd s = Some (a, r) -> (length r <= length s)%nat.
Proof.
  induction n as [|n IH]; intros s a r L E; (destruct s as [|c s]; [discriminate|]); [cbn [length] in L; lia|].
  rewrite tripleEnd_eq in E. destruct ((c =? 34) && _) eqn:Q.
  - assert (r = skipn 2 s) by congruence. subst r. rewrite skipn_length. cbn [length]. lia.
  - destruct s as [|x s]; [discriminate|]. cbn [length] in L. destruct (c =? 92).
    + destruct (tripleEnd s) as [[a' r']|] eqn:T; [|discriminate]. apply IH in T; [|lia]. assert (r' = r) by congruence. subst r'. cbn [length]. lia.
    + destruct (tripleEnd (x :: s)) as [[a' r']|] eqn:T; [|discriminate]. apply IH in T; [|cbn [length]; lia]. assert (r' = r) by congruence. subst r'. cbn [length] in *. lia.
Qed.
Lemma triple_length s a r : tripleEnd s = Some (a, r) -> (length r <= length s)%nat.
Proof. apply (triple_length_aux (length s)). lia. Qed.
Lemma letter_word c : letter c = true -> wordChar c = true.
Proof. unfold letter, wordChar. lia. Qed.
Lemma digit_word c : digit c = true -> wordChar c = true.
Proof. unfold digit, wordChar. lia. Qed.

Lemma lexF_enough n : forall m d b s, (length s <= n)%nat -> (length s <= m)%nat -> lexF n d b s = lexF m d b s.
Proof.
  induction n as [|n IH]; intros m d b s L1 L2.
  - destruct s; [|cbn in L1; lia]. destruct m; reflexivity.
  - destruct s as [|c r]; [destruct m; reflexivity|]. destruct m as [|m]; [cbn in L2; lia|]. cbn [length] in L1, L2.
    assert (G : forall d b s, (length s <= length r)%nat -> lexF n d b s = lexF m d b s) by (intros; apply IH; lia).
    cbn [lexF]. destruct (c =? 10); [destruct d; [f_equal|]; apply G; lia|].
    destruct (blank c).
    { destruct b; [|apply G; lia]. pose proof (span_length blank r) as SL. destruct (span blank r) as [x [|y r']]; [reflexivity|]. destruct ((y =? 10) || (y =? 35)); [apply G; exact SL|reflexivity]. }
    destruct (c =? 35); [apply G, span_length|].
    destruct (starts [34; 34; 34] (c :: r)) eqn:Q3.
    { destruct (tripleEnd (skipn 3 (c :: r))) as [[a r']|] eqn:Q; [|reflexivity]. f_equal. apply G. apply triple_length in Q. cbn [skipn] in Q. destruct r as [|? [|? ?]]; cbn in *; lia. }
    destruct ((c =? 34) || (c =? 39)).
    { match goal with |- context[span ?p r] => pose proof (span_length p r) as SL; destruct (span p r) as [a [|x r']] end; [reflexivity|]. destruct (x =? c); [|reflexivity]. f_equal. apply G. cbn in SL. lia. }
    destruct (letter c) eqn:QL.
    { destruct (span wordChar (c :: r)) as [a r'] eqn:Q. f_equal. apply G. eapply span_word_length; [reflexivity|apply letter_word; exact QL|exact Q]. }
    destruct (digit c) eqn:QD.
    { destruct (span wordChar (c :: r)) as [a r'] eqn:Q. destruct (intLit a); [|reflexivity]. f_equal. apply G. eapply span_word_length; [reflexivity|apply digit_word; exact QD|exact Q]. }
    destruct (starts [60; 60] (c :: r)); [f_equal; apply G; destruct r; cbn; lia|].
    destruct (starts [62; 62] (c :: r)); [f_equal; apply G; destruct r; cbn; lia|].
    destruct (starts [45; 62] (c :: r)); [f_equal; apply G; destruct r; cbn; lia|].
    destruct (opChar c); [|reflexivity]. destruct (opens c); [f_equal; apply G; lia|]. destruct (closes c); [destruct d; [reflexivity|f_equal; apply G; lia]|f_equal; apply G; lia].
Qed.
Definition L (d : nat) (b : bool) (s : str) : option (list tok) := lexF (length s) d b s.
Lemma L_eq n d b s : (length s <= n)%nat -> lexF n d b s = L d b s.
Proof. intros H. apply lexF_enough; [exact H|lia]. Qed.

(** ** One token *)
Lemma L_nil b : L 0 b [] = Some [].
Proof. reflexivity. Qed.
Lemma L_nl b r : L 0 b (10 :: r) = ocons TNl (L 0 true r).
Proof. reflexivity. Qed.
Lemma L_nl_in d b r : L (S d) b (10 :: r) = L (S d) false r.
Proof. reflexivity. Qed.
Lemma L_space d r : L d false (32 :: r) = L d false r.
Proof. reflexivity. Qed.
Lemma L_blank d c r : blank c = true -> L d false (c :: r) = L d false r.
Proof.
  intros H. unfold L. cbn [length lexF]. replace (c =? 10) with false by (unfold blank in H; lia). rewrite H. reflexivity.
Qed.
(** what may follow a word *)
Definition bound (r : str) : Prop := match r with [] => True | c :: _ => wordChar c = false end.
Lemma L_name d b c w r : letter c = true -> forallb wordChar w = true -> bound r -> L d b ((c :: w) ++ r) = ocons (TName (c :: w)) (L d false r).
Proof.
  intros HL HW HB. assert (SP : span wordChar ((c :: w) ++ r) = (c :: w, r)).
  { apply span_intro; [cbn [forallb]; rewrite (letter_word c HL); exact HW|exact HB]. }
  unfold L at 1. cbn [app length lexF]. cbn [app] in SP. rewrite SP.
  assert (A1 : (c =? 10) = false) by (unfold letter in HL; lia). assert (A2 : blank c = false) by (unfold letter in HL; unfold blank; lia). assert (A3 : (c =? 35) = false) by (unfold letter in HL; lia).
  assert (A4 : starts [34; 34; 34] (c :: w ++ r) = false) by (cbn [starts]; replace (34 =? c) with false by (unfold letter in HL; lia); reflexivity).
  assert (A5 : (c =? 34) || (c =? 39) = false) by (unfold letter in HL; lia). rewrite A1, A2, A3, A4, A5, HL. f_equal. apply L_eq. rewrite app_length. lia.
Qed.
Lemma L_int d b c w r z : digit c = true -> forallb wordChar w = true -> bound r -> intLit (c :: w) = Some z -> L d b ((c :: w) ++ r) = ocons (TInt z) (L d false r).
Proof.
  intros HL HW HB HI. assert (SP : span wordChar ((c :: w) ++ r) = (c :: w, r)).
  { apply span_intro; [cbn [forallb]; rewrite (digit_word c HL); exact HW|exact HB]. }
  unfold L at 1. cbn [app length lexF]. cbn [app] in SP. rewrite SP, HI.
  assert (A1 : (c =? 10) = false) by (unfold digit in HL; lia). assert (A2 : blank c = false) by (unfold digit in HL; unfold blank; lia). assert (A3 : (c =? 35) = false) by (unfold digit in HL; lia).
  assert (A4 : starts [34; 34; 34] (c :: w ++ r) = false) by (cbn [starts]; replace (34 =? c) with false by (unfold digit in HL; lia); reflexivity).
  assert (A5 : (c =? 34) || (c =? 39) = false) by (unfold digit in HL; lia). assert (A6 : letter c = false) by (unfold digit in HL; unfold letter; lia).
  rewrite A1, A2, A3, A4, A5, A6, HL. f_equal. apply L_eq. rewrite app_length. lia.
Qed.
Lemma L_equals d b r : L d b (61 :: r) = ocons (TOp 61) (L d false r).
Proof. reflexivity. Qed.
Lemma L_comma d b r : L d b (44 :: r) = ocons (TOp 44) (L d false r).
Proof. reflexivity. Qed.
Lemma L_open d b r : L d b (91 :: r) = ocons (TOp 91) (L (S d) false r).
Proof. reflexivity. Qed.
Lemma L_close d b r : L (S d) b (93 :: r) = ocons (TOp 93) (L d false r).
Proof. reflexivity. Qed.
(** a text between quotation marks *)
Definition plainText (s : str) : Prop := Forall (fun c => c <> 34 /\ c <> 92) s.
Lemma triple_plain s r : plainText s -> tripleEnd (s ++ [34; 34; 34] ++ r) = Some (s, r).
Proof.
  induction s as [|c s IH]; intros P; [reflexivity|]. inversion P as [|? ? [A B] P']; subst. cbn [app].
  assert (D : tripleEnd (c :: s ++ [34; 34; 34] ++ r) = match tripleEnd (s ++ [34; 34; 34] ++ r) with Some (a, b) => Some (c :: a, b) | None => None end).
  { rewrite tripleEnd_eq. replace (c =? 34) with false by lia. replace (c =? 92) with false by lia. cbn [andb]. destruct s; reflexivity. }
  cbn [app] in D, IH. rewrite D, (IH P'). reflexivity.
Qed.
Lemma L_doc d b s r : plainText s -> L d b ([34; 34; 34] ++ s ++ [34; 34; 34] ++ r) = ocons (TDoc s) (L d false r).
Proof.
  intros P. pose proof (triple_plain s r P) as T. cbn [app] in T. cbn [app].
  assert (E : forall n, lexF (S n) d b (34 :: 34 :: 34 :: s ++ 34 :: 34 :: 34 :: r) = ocons (TDoc s) (lexF n d false r)).
  { intros n. cbn [lexF]. change (starts [34; 34; 34] (34 :: 34 :: 34 :: s ++ 34 :: 34 :: 34 :: r)) with true.
    change (34 =? 10) with false. change (blank 34) with false. change (34 =? 35) with false. cbv iota. cbn [skipn]. rewrite T. reflexivity. }
  unfold L at 1. cbn [length]. rewrite E. f_equal. apply L_eq. rewrite app_length. cbn. lia.
Qed.

(** ** Numerals *)
(** a numeral as in C and Python: decimal without leading zeros, or hexadecimal *)
Definition decimal (s : str) : Prop := s <> [] /\ Forall (fun c => 48 <= c <= 57) s /\ (hd 0 s = 48 -> s = [48]).
Definition hexDigit (c v : Z) : Prop := (48 <= c <= 57 /\ v = c - 48) \/ (65 <= c <= 70 /\ v = c - 55) \/ (97 <= c <= 102 /\ v = c - 87).
Definition value (base : Z) (vs : list Z) : Z := fold_left (fun a v => a * base + v) vs 0.
Inductive numeral : str -> Z -> Prop :=
| num_dec s : decimal s -> numeral s (value 10 (map (fun c => c - 48) s))
| num_hex x s vs : x = 120 \/ x = 88 -> s <> [] -> Forall2 hexDigit s vs -> numeral (48 :: x :: s) (value 16 vs).

Lemma hexVal_iff c v : hexDigit c v -> hexVal c = Some v.
Proof.
  intros [[A ->]|[[A ->]|[A ->]]]; unfold hexVal, digit.
  - replace ((48 <=? c) && (c <=? 57)) with true by lia. reflexivity.
  - replace ((48 <=? c) && (c <=? 57)) with false by lia. replace ((65 <=? c) && (c <=? 70)) with true by lia. reflexivity.
  - replace ((48 <=? c) && (c <=? 57)) with false by lia. replace ((65 <=? c) && (c <=? 70)) with false by lia. replace ((97 <=? c) && (c <=? 102)) with true by lia. reflexivity.
Qed.
Lemma digitsVal_hex s vs : Forall2 hexDigit s vs -> forall a, digitsVal 16 s a = Some (fold_left (fun a v => a * 16 + v) vs a).
Proof.
  induction 1 as [|c v s vs H F IH]; intros a; [reflexivity|]. cbn [digitsVal fold_left]. rewrite (hexVal_iff c v H). replace (v <? 16) with true by (unfold hexDigit in H; lia). apply IH.
Qed.
Lemma digitsVal_dec s : Forall (fun c => 48 <= c <= 57) s -> forall a, digitsVal 10 s a = Some (fold_left (fun a v => a * 10 + v) (map (fun c => c - 48) s) a).
Proof.
  induction 1 as [|c s H F IH]; intros a; [reflexivity|]. cbn [digitsVal fold_left map]. unfold hexVal, digit. replace ((48 <=? c) && (c <=? 57)) with true by lia. replace (c - 48 <? 10) with true by lia. apply IH.
Qed.
Lemma intLit_numeral s z : numeral s z -> intLit s = Some z.
Proof.
  intros [t (N & F & H)|x t vs X N F].
  - destruct t as [|c t]; [contradiction|]. destruct (Z.eq_dec c 48) as [->|D].
    + specialize (H eq_refl). injection H as ->. reflexivity.
    + transitivity (digitsVal 10 (c :: t) 0); [|apply digitsVal_dec; exact F].
      unfold intLit. destruct c as [|p|p]; try reflexivity. do 6 (destruct p as [p|p|]; try reflexivity). elim D. reflexivity.
  - unfold intLit. replace ((x =? 120) || (x =? 88)) with true by lia. destruct t as [|c t]; [contradiction|]. apply digitsVal_hex. exact F.
Qed.
Lemma numeral_form s z : numeral s z -> exists c w, s = c :: w /\ digit c = true /\ forallb wordChar w = true.
Proof.
  intros [t (N & F & _)|x t vs X N F].
  - destruct t as [|c t]; [contradiction|]. inversion F; subst. exists c, t. split; [reflexivity|]. split; [unfold digit; lia|].
    apply forallb_forall. intros y I. rewrite Forall_forall in *. assert (48 <= y <= 57) by auto. unfold wordChar. lia.
  - exists 48, (x :: t). split; [reflexivity|]. split; [reflexivity|]. cbn [forallb]. replace (wordChar x) with true by (unfold wordChar; lia). cbn [andb].
    clear N. induction F as [|c v t vs H F IH]; [reflexivity|]. cbn [forallb]. rewrite IH. unfold hexDigit in H. replace (wordChar c) with true by (unfold wordChar; lia). reflexivity.
Qed.
Lemma L_numeral d b s z r : numeral s z -> bound r -> L d b (s ++ r) = ocons (TInt z) (L d false r).
Proof.
  intros N B. destruct (numeral_form s z N) as (c & w & -> & D & W). apply L_int; try assumption. apply intLit_numeral. exact N.
Qed.

(** ** Lists of numerals, with white space around them and perhaps a comma at the end *)
Definition white (s : str) : Prop := Forall (fun c => c = 32 \/ c = 9 \/ c = 10) s.
Inductive listing : str -> list Z -> Prop :=
| list_one a s z b : white a -> numeral s z -> white b -> listing (a ++ s ++ b) [z]
| list_last a s z b c : white a -> numeral s z -> white b -> white c -> listing (a ++ s ++ b ++ [44] ++ c) [z]
| list_more a s z b r zs : white a -> numeral s z -> white b -> listing r zs -> listing (a ++ s ++ b ++ [44] ++ r) (z :: zs).
Lemma L_white d a r : white a -> L (S d) false (a ++ r) = L (S d) false r.
Proof.
  induction 1 as [|c a H F IH]; [reflexivity|]. cbn [app]. destruct H as [->|[->| ->]]; [|rewrite L_blank by reflexivity; exact IH|]; exact IH.
Qed.
Lemma bound_white a r : white a -> bound r -> bound (a ++ r).
Proof. intros [|c a' [->|[->| ->]] _] B; [exact B| | |]; reflexivity. Qed.
(** the tokens *)
Inductive itemToks : list Z -> list tok -> Prop :=
| it_one z : itemToks [z] [TInt z]
| it_last z : itemToks [z] [TInt z; TOp 44]
| it_more z zs ts : itemToks zs ts -> itemToks (z :: zs) (TInt z :: TOp 44 :: ts).
Definition oapp {A} (x : list A) (l : option (list A)) : option (list A) := match l with Some l => Some (x ++ l) | None => None end.
Lemma ocons_app {A} (x : A) y l : ocons x (oapp y l) = oapp (x :: y) l.
Proof. destruct l; reflexivity. Qed.
Lemma L_listing body zs : listing body zs -> exists ts, itemToks zs ts /\ forall d r, L (S d) false (body ++ [93] ++ r) = oapp (ts ++ [TOp 93]) (L d false r).
Proof.
  induction 1 as [a s z b A N B|a s z b c A N B C|a s z b r zs A N B H IH].
  - exists [TInt z]. split; [constructor|]. intros d r. rewrite <- !app_assoc. rewrite L_white by exact A. rewrite (L_numeral _ _ s z) by first [exact N|apply bound_white; [exact B|reflexivity]].
    rewrite L_white by exact B. cbn [app]. rewrite L_close. destruct (L d false r); reflexivity.
  - exists [TInt z; TOp 44]. split; [constructor|]. intros d r. rewrite <- !app_assoc. rewrite L_white by exact A. rewrite (L_numeral _ _ s z) by first [exact N|apply bound_white; [exact B|reflexivity]].
    rewrite L_white by exact B. cbn [app]. rewrite L_comma. rewrite L_white by exact C. rewrite L_close. destruct (L d false r); reflexivity.
  - destruct IH as (ts & T & IH). exists (TInt z :: TOp 44 :: ts). split; [constructor; exact T|]. intros d r'. rewrite <- !app_assoc. rewrite L_white by exact A.
    rewrite (L_numeral _ _ s z) by first [exact N|apply bound_white; [exact B|reflexivity]]. rewrite L_white by exact B. cbn [app]. rewrite L_comma. cbn [app] in IH. rewrite IH. destruct (L d false r'); reflexivity.
Qed.
Lemma white_app a b : white a -> white b -> white (a ++ b).
Proof. intros. apply Forall_app. split; assumption. Qed.

(** indentation and the end of the last line do not matter *)
Lemma replace_app s t : PyStr.py_replace (s ++ t) 10 ([10] ++ lit "    ") = PyStr.py_replace s 10 ([10] ++ lit "    ") ++ PyStr.py_replace t 10 ([10] ++ lit "    ").
Proof. unfold PyStr.py_replace. apply flat_map_app. Qed.
Lemma replace_white s : white s -> white (PyStr.py_replace s 10 ([10] ++ lit "    ")).
Proof.
  induction 1 as [|c s H F IH]; [constructor|]. unfold PyStr.py_replace in *. cbn [flat_map]. apply white_app; [|exact IH].
  destruct H as [->|[->| ->]]; cbn; repeat (constructor; [auto|]); constructor.
Qed.
Lemma replace_word s : forallb wordChar s = true -> PyStr.py_replace s 10 ([10] ++ lit "    ") = s.
Proof.
  induction s as [|c s IH]; intros H; [reflexivity|]. cbn [forallb] in H. apply andb_prop in H. destruct H as [H1 H2]. unfold PyStr.py_replace in *. cbn [flat_map]. rewrite IH by exact H2.
  replace (c =? 10) with false by (unfold wordChar in H1; lia). reflexivity.
Qed.
Lemma replace_numeral s z : numeral s z -> PyStr.py_replace s 10 ([10] ++ lit "    ") = s.
Proof. intros N. destruct (numeral_form s z N) as (c & w & -> & D & W). apply replace_word. cbn [forallb]. rewrite (digit_word c D). exact W. Qed.
Lemma listing_replace s zs : listing s zs -> listing (PyStr.py_replace s 10 ([10] ++ lit "    ")) zs.
Proof.
  induction 1 as [a s z b A N B|a s z b c A N B C|a s z b r zs A N B H IH]; rewrite !replace_app, (replace_numeral s z N).
  - apply list_one; auto using replace_white.
  - apply list_last; auto using replace_white.
  - apply list_more; auto using replace_white.
Qed.
Lemma white_last a x : white (a ++ [x]) -> white a.
Proof. intros H. apply Forall_app in H. apply H. Qed.
Lemma listing_chop s zs : listing (s ++ [10]) zs -> listing s zs.
Proof.
  intros H. remember (s ++ [10]) as t eqn:E. revert s E.
  assert (G : forall a w s' : str, a ++ w = s' ++ [10] -> white w -> (exists w', w = w' ++ [10] /\ s' = a ++ w' /\ white w') \/ (w = [] /\ a = s' ++ [10])).
  { intros a w s' E W. destruct w as [|x w] using rev_ind; [right; rewrite app_nil_r in E; auto|]. left. rewrite app_assoc in E. apply app_inj_tail in E as [E ->]. exists w. split; [reflexivity|]. split; [auto|apply white_last in W; exact W]. }
  assert (NN : forall s' s z, numeral s z -> forall a, a ++ s <> s' ++ [10]).
  { intros s' s z N a E. destruct (numeral_form s z N) as (c & w & -> & D & W). destruct w as [|x w _] using rev_ind.
    - apply app_inj_tail in E as [_ ->]. discriminate D.
    - change (c :: w ++ [x]) with ((c :: w) ++ [x]) in E. rewrite app_assoc in E. apply app_inj_tail in E as [_ ->]. rewrite forallb_app in W. apply andb_prop in W as [_ W]. discriminate W. }
  induction H as [a s z b A N B|a s z b c A N B C|a s z b r zs A N B H IH]; intros s' E.
  - rewrite app_assoc in E. destruct (G _ _ _ E B) as [(w & -> & -> & W)|[-> E2]]; [|elim (NN _ _ _ N _ E2)]. rewrite <- app_assoc. apply list_one; assumption.
  - replace (a ++ s ++ b ++ [44] ++ c) with ((a ++ s ++ b ++ [44]) ++ c) in E by (rewrite <- !app_assoc; reflexivity). destruct (G _ _ _ E C) as [(w & -> & -> & W)|[-> E2]].
    + rewrite <- !app_assoc. apply list_last; assumption.
    + rewrite !app_assoc in E2. apply app_inj_tail in E2 as [_ E2]. discriminate.
  - destruct r as [|x r _] using rev_ind.
    + rewrite app_nil_r in E. rewrite !app_assoc in E. apply app_inj_tail in E as [_ E]. discriminate.
    + rewrite !app_assoc in E. apply app_inj_tail in E as [<- ->]. specialize (IH r eq_refl). rewrite <- !app_assoc. apply list_more; assumption.
Qed.

(** ** The parser on these tokens *)
Lemma pExpr_int n z x r : prec x = None -> pExpr (S (S n)) 0 (TInt z :: TOp x :: r) = Some (EInt z, TOp x :: r).
Proof. intros H. cbn [pExpr pUnary pLoop]. rewrite H. reflexivity. Qed.
Lemma pExpr_int_nl n z r : pExpr (S (S n)) 0 (TInt z :: TNl :: r) = Some (EInt z, TNl :: r).
Proof. reflexivity. Qed.
Lemma pItems_ints zs ts : itemToks zs ts -> forall n r, (2 * length zs + 2 <= n)%nat -> pItems n 93 (ts ++ TOp 93 :: r) = Some (map EInt zs, r).
Proof.
  induction 1 as [z|z|z zs ts H IH]; intros n r LN; cbn [length] in LN; (destruct n as [|[|[|n]]]; try lia); cbn [app].
  - change (pItems (S (S (S n))) 93 (TInt z :: TOp 93 :: r)) with (match pExpr (S (S n)) 0 (TInt z :: TOp 93 :: r) with
      | Some (a, TOp x :: r) => if x =? 44 then match pItems (S (S n)) 93 r with Some (l, r) => Some (a :: l, r) | None => None end else if x =? 93 then Some ([a], r) else None
      | _ => None end). rewrite pExpr_int by reflexivity. reflexivity.
  - change (pItems (S (S (S n))) 93 (TInt z :: TOp 44 :: TOp 93 :: r)) with (match pExpr (S (S n)) 0 (TInt z :: TOp 44 :: TOp 93 :: r) with
      | Some (a, TOp x :: r) => if x =? 44 then match pItems (S (S n)) 93 r with Some (l, r) => Some (a :: l, r) | None => None end else if x =? 93 then Some ([a], r) else None
      | _ => None end). rewrite pExpr_int by reflexivity. reflexivity.
  - change (pItems (S (S (S n))) 93 (TInt z :: TOp 44 :: ts ++ TOp 93 :: r)) with (match pExpr (S (S n)) 0 (TInt z :: TOp 44 :: ts ++ TOp 93 :: r) with
      | Some (a, TOp x :: r) => if x =? 44 then match pItems (S (S n)) 93 r with Some (l, r) => Some (a :: l, r) | None => None end else if x =? 93 then Some ([a], r) else None
      | _ => None end). rewrite pExpr_int by reflexivity. change (44 =? 44) with true. cbv iota. rewrite IH by lia. reflexivity.
Qed.
Lemma itemToks_length zs ts : itemToks zs ts -> (length zs <= length ts)%nat /\ (2 * length zs <= length ts + 1)%nat.
Proof. induction 1; cbn in *; lia. Qed.
Lemma pRight_list zs ts n r : itemToks zs ts -> (length ts + 5 <= n)%nat -> pRight n (TOp 91 :: ts ++ TOp 93 :: TNl :: r) = Some (EList (map EInt zs), r).
Proof.
  intros H LN. pose proof (itemToks_length _ _ H) as LL. unfold pRight. destruct n as [|[|[|n]]]; try lia. cbn [pExpr]. change (pUnary (S (S n)) (TOp 91 :: ts ++ TOp 93 :: TNl :: r)) with
    (match pItems (S n) 93 (ts ++ TOp 93 :: TNl :: r) with Some (l, r) => Some (EList l, r) | None => None end). rewrite (pItems_ints zs ts H) by lia. reflexivity.
Qed.

(** ** Statements *)
Section Modules.
Variable mods : str -> option (dict pval).
Lemma keyword_not x : keyword x = false -> str_eqb x (lit "from") = false /\ str_eqb x (lit "def") = false.
Proof.
  intros K. unfold keyword in K. assert (G : forall k, In k keywords -> str_eqb x k = false).
  { intros k I. destruct (str_eqb x k) eqn:E; [|reflexivity]. assert (existsb (str_eqb x) keywords = true) by (apply existsb_exists; eauto). congruence. }
  split; apply G; vm_compute; auto 25.
Qed.
Lemma pStmts_mono n : forall m ts l, pStmts mods n ts = Some l -> (n <= m)%nat -> pStmts mods m ts = Some l.
Proof.
  induction n as [|n IH]; intros m ts l H LE; [discriminate|]. destruct m as [|m]; [lia|]. cbn [pStmts] in *.
  assert (G : forall x ts l, ocons x (pStmts mods n ts) = Some l -> ocons x (pStmts mods m ts) = Some l).
  { intros x ts' l' E. destruct (pStmts mods n ts') eqn:Q; [|discriminate]. rewrite (IH m ts' _ Q) by lia. exact E. }
  destruct ts as [|t r]; [exact H|]. destruct t as [x|z|s|s|c|]; try discriminate.
  - destruct (str_eqb x (lit "from")).
    { destruct r as [|[ | | | |c| ] [|[m1| | | | | ] [|[i| | | | | ] [|[ | | | |c'| ] r]]]]; try discriminate; try (destruct c as [|p|p]; try discriminate; do 6 (destruct p as [p|p|]; try discriminate)).
      destruct c' as [|p|p]; try discriminate; do 6 (destruct p as [p|p|]; try discriminate). destruct (str_eqb i (lit "import")); [|discriminate]. destruct (mods m1); [|discriminate]. destruct r as [|[ | | | | | ] r]; try discriminate; [exact H|apply G; exact H]. }
    destruct (str_eqb x (lit "def")).
    { destruct r as [|[f| | | | | ] r]; try discriminate. destruct (keyword f); [discriminate|]. destruct (dropToks maskDef r); [apply G; exact H|discriminate]. }
    destruct (keyword x); [discriminate|]. destruct r as [|[ | | | |c| ] r]; try discriminate. destruct c as [|p|p]; try discriminate. do 6 (destruct p as [p|p|]; try discriminate).
    destruct (pRight _ r) as [[e r']|]; [apply G; exact H|discriminate].
  - destruct r as [|[ | | | | | ] r]; try discriminate; [exact H|apply IH; [exact H|lia]].
  - apply IH; [exact H|lia].
Qed.
(** the statements of a text that begins a line *)
Definition reads (s : str) (l : list stmt) : Prop := exists ts, L 0 true s = Some ts /\ pStmts mods (S (length ts)) ts = Some l.
Lemma reads_parse s l : reads s l -> parseModule mods s = Some l.
Proof. intros (ts & A & B). unfold parseModule. unfold lex. fold (L 0 true s). rewrite A. exact B. Qed.
Lemma reads_nil : reads [] [].
Proof. exists []. split; reflexivity. Qed.
Lemma reads_nl s l : reads s l -> reads (10 :: s) l.
Proof.
  intros (ts & A & B). exists (TNl :: ts). rewrite L_nl, A. split; [reflexivity|]. cbn [length]. change (pStmts mods (S (S (length ts))) (TNl :: ts)) with (pStmts mods (S (length ts)) ts). exact B.
Qed.
Lemma reads_doc doc s l : plainText doc -> reads s l -> reads ([34; 34; 34] ++ doc ++ [34; 34; 34] ++ 10 :: s) l.
Proof.
  intros P (ts & A & B). exists (TDoc doc :: TNl :: ts). rewrite L_doc by exact P. rewrite L_nl, A. split; [reflexivity|]. cbn [length].
  change (pStmts mods (S (S (length ts))) ts = Some l). apply pStmts_mono with (n := S (length ts)); [exact B|lia].
Qed.
(** [name = ...] *)
Definition ident (s : str) : Prop := match s with [] => False | c :: w => letter c = true /\ forallb wordChar w = true end /\ keyword s = false.
Lemma assign_step x e ts rest l : keyword x = false -> pRight (4 * length (ts ++ TNl :: rest) + 8) (ts ++ TNl :: rest) = Some (e, rest) -> pStmts mods (S (length rest)) rest = Some l ->
  pStmts mods (S (length (TName x :: TOp 61 :: ts ++ TNl :: rest))) (TName x :: TOp 61 :: ts ++ TNl :: rest) = Some (SAssign x e :: l).
Proof.
  intros K R P. destruct (keyword_not x K) as [K1 K2]. cbn [pStmts]. rewrite K1, K2, K, R. rewrite (pStmts_mono _ _ _ _ P); [reflexivity|]. cbn [length]. rewrite app_length. cbn. lia.
Qed.
Lemma L_ident d b x r : ident x -> bound r -> L d b (x ++ r) = ocons (TName x) (L d false r).
Proof. intros [I _] B. destruct x as [|c w]; [destruct I|]. destruct I. apply L_name; assumption. Qed.
Lemma reads_int x v z s l : ident x -> numeral v z -> reads s l -> reads (x ++ lit " = " ++ v ++ 10 :: s) (SAssign x (EInt z) :: l).
Proof.
  intros I N (ts & A & B). exists (TName x :: TOp 61 :: [TInt z] ++ TNl :: ts). split.
  - rewrite (L_ident _ _ x) by (try exact I; reflexivity). change (lit " = " ++ v ++ 10 :: s) with (32 :: 61 :: 32 :: v ++ 10 :: s). rewrite L_space, L_equals, L_space.
    rewrite (L_numeral _ _ v z) by (try exact N; reflexivity). rewrite L_nl, A. reflexivity.
  - apply assign_step; [apply I|reflexivity|exact B].
Qed.
Lemma reads_list x body zs s l : ident x -> listing body zs -> reads s l -> reads (x ++ lit " = [" ++ body ++ lit "]" ++ 10 :: s) (SAssign x (EList (map EInt zs)) :: l).
Proof.
  intros I N (ts & A & B). destruct (L_listing body zs N) as (its & T & LL). exists (TName x :: TOp 61 :: (TOp 91 :: its ++ [TOp 93]) ++ TNl :: ts). split.
  - rewrite (L_ident _ _ x) by (try exact I; reflexivity). change (lit " = [" ++ body ++ lit "]" ++ 10 :: s) with (32 :: 61 :: 32 :: 91 :: body ++ [93] ++ 10 :: s).
    rewrite L_space, L_equals, L_space, L_open, LL, L_nl, A. cbn [ocons oapp app]. rewrite <- !app_assoc. reflexivity.
  - apply assign_step; [apply I| |exact B]. cbn [app]. rewrite <- !app_assoc. cbn [app]. apply pRight_list; [exact T|]. cbn [length]. rewrite app_length. cbn. lia.
Qed.
(** the text of arrayToPython *)
Lemma reads_array x body zs s l : ident x -> listing body zs -> reads s l -> reads (ModuleBuilder.arrayText x body ++ s) (SAssign x (EList (map EInt zs)) :: l).
Proof.
  intros I N R. unfold ModuleBuilder.arrayText. cbv zeta.
  set (body1 := if ends [10] body then removelast body else body).
  assert (N1 : listing body1 zs).
  { unfold body1. destruct (ends [10] body) eqn:E; [|exact N]. apply listing_chop. unfold ends in E. cbn [rev app] in E. apply starts_iff in E as [r E]. apply (f_equal (@rev Z)) in E. rewrite rev_involutive, rev_app_distr in E. cbn [rev app] in E.
    rewrite E in N |- *. rewrite removelast_last. exact N. }
  assert (W : forall t zs, listing t zs -> listing (t ++ [10]) zs).
  { clear. intros t zs H. induction H as [a s z b A N B|a s z b c A N B C|a s z b r zs A N B H IH]; rewrite <- !app_assoc.
    - apply list_one; try assumption. apply white_app; [assumption|constructor; auto].
    - apply list_last; try assumption. apply white_app; [assumption|constructor; auto].
    - apply list_more; assumption. }
  destruct (existsb (Z.eqb 10) body).
  - pose proof (reads_list x (PyStr.py_replace body1 10 ([10] ++ lit "    ") ++ [10]) zs s l I (W _ _ (listing_replace _ _ N1)) R) as H. rewrite <- !app_assoc in *. exact H.
  - pose proof (reads_list x body1 zs s l I N1 R) as H. rewrite <- !app_assoc in *. exact H.
Qed.
End Modules.
