(** * Reading arithmetic expressions *)
From Coq Require Import ZArith List Bool Lia ZifyBool String.
From Verif Require Import Py Dict Utilities CharNames PyText PyModule PyParse HeaderFacts ParseFacts.
Import ListNotations.
Open Scope string_scope.
Open Scope list_scope.
Open Scope Z_scope.
Local Notation length := List.length.

(** ** What an expression means, in C and in Python

    [means names mask p s z]: the text [s] is an expression of numerals, names and the
    operators + - * << >> & | and parentheses, with blanks between them, and its value is
    [z]; its operators outside parentheses are of a level above [p]: 1 for |, 2 for &,
    3 for shifts, 4 for + and -, 5 for *, and operators of one level are grouped from the left.
    [names] has the values of the names; with [mask], U_MASK(n) is 1 << n. *)
Definition blanks (s : str) : Prop := Forall (fun c => c = 32 \/ c = 9) s.
Inductive operator : str -> Z -> (Z -> Z -> Z) -> (Z -> Prop) -> Prop :=
| o_or : operator (lit "|") 1 Z.lor (fun _ => True)
| o_and : operator (lit "&") 2 Z.land (fun _ => True)
| o_shl : operator (lit "<<") 3 (fun x y => x * 2 ^ y) (fun y => 0 <= y)
| o_shr : operator (lit ">>") 3 (fun x y => x / 2 ^ y) (fun y => 0 <= y)
| o_add : operator (lit "+") 4 Z.add (fun _ => True)
| o_sub : operator (lit "-") 4 Z.sub (fun _ => True)
| o_mul : operator (lit "*") 5 Z.mul (fun _ => True).
Inductive means (names : str -> option Z) (mask : bool) : Z -> str -> Z -> Prop :=
| m_num p s z : numeral s z -> means names mask p s z
| m_name p x z : ident x -> names x = Some z -> means names mask p x z
| m_par p a s b z : blanks a -> blanks b -> means names mask 0 s z -> means names mask p (lit "(" ++ a ++ s ++ b ++ lit ")") z
| m_neg p a s z : blanks a -> means names mask 5 s z -> means names mask p (lit "-" ++ a ++ s) (- z)
| m_mask p a b s c z : mask = true -> blanks a -> blanks b -> blanks c -> means names mask 0 s z -> 0 <= z ->
    means names mask p (lit "U_MASK" ++ a ++ lit "(" ++ b ++ s ++ c ++ lit ")") (2 ^ z)
| m_op p s a o b t x y q f ok : operator o q f ok -> p < q -> blanks a -> blanks b ->
    means names mask (q - 1) s x -> means names mask q t y -> ok y -> means names mask p (s ++ a ++ o ++ b ++ t) (f x y).

(** ** The tokens *)
Inductive G : Z -> list tok -> expr -> Prop :=
| G_int p z : G p [TInt z] (EInt z)
| G_name p x : keyword x = false -> G p [TName x] (EName x)
| G_par p ts e : G 0 ts e -> G p (TOp 40 :: ts ++ [TOp 41]) e
| G_neg p ts e : G 5 ts e -> G p (TOp 45 :: ts) (ENeg e)
| G_call p x ts e : keyword x = false -> G 0 ts e -> G p (TName x :: TOp 40 :: ts ++ [TOp 41]) (ECall (EName x) e)
| G_bin p o q op ts us a b : prec o = Some (q, op) -> p < q -> G (q - 1) ts a -> G q us b -> G p (ts ++ TOp o :: us) (EBin op a b).

(** a token at which an operand of level [p] ends *)
Definition ends_at (p : Z) (r : list tok) : Prop :=
  match r with TOp o :: _ => match prec o with Some (q, _) => q <= p | None => o <> 40 end | _ => True end.
Lemma ends_weaken p q r : p <= q -> ends_at p r -> ends_at q r.
Proof. unfold ends_at. destruct r as [|[] r]; auto. destruct (prec c) as [[x o]|]; auto. lia. Qed.
Lemma ends_call p r : ends_at p r -> match r with TOp 40 :: _ => False | _ => True end.
Proof.
  destruct r as [|t r]; [auto|]. destruct t as [| | | |c|]; auto. intros H. destruct (Z.eq_dec c 40) as [->|N].
  - cbn in H. congruence.
  - clear H. destruct c as [|c|c]; auto. destruct (Pos.eq_dec c 40) as [->|N']; [congruence|].
    do 6 (try (destruct c as [c|c|]; auto)).
Qed.
Lemma pLoop_end n p a r : ends_at p r -> pLoop (S n) p a r = Some (a, r).
Proof.
  cbn [pLoop]. destruct r as [|[] r]; auto. cbn [ends_at]. destruct (prec c) as [[x o]|]; auto. intros H.
  destruct (p <? x) eqn:E; [apply Z.ltb_lt in E; lia|reflexivity].
Qed.
Lemma prec_range o q op : prec o = Some (q, op) -> 1 <= q <= 5.
Proof. unfold prec. repeat (destruct (_ =? _); [intros [= <- <-]; lia|]). discriminate. Qed.
Lemma prec_op o q op : prec o = Some (q, op) -> o <> 40.
Proof. intros H ->. discriminate. Qed.

(** an operand that is not an operation *)
Lemma unary_name n x r : keyword x = false -> match r with TOp 40 :: _ => False | _ => True end -> pUnary (S n) (TName x :: r) = Some (EName x, r).
Proof.
  intros K N. cbn [pUnary]. rewrite K. destruct r as [|t r]; [reflexivity|]. destruct t as [| | | |c|]; try reflexivity.
  destruct c as [|c|c]; try reflexivity. do 6 (try (destruct c as [c|c|]; try reflexivity)). destruct N.
Qed.
Lemma unary_call n x r : keyword x = false -> pUnary (S n) (TName x :: TOp 40 :: r) = match pExpr n 0 r with Some (a, TOp 41 :: r) => Some (ECall (EName x) a, r) | _ => None end.
Proof. intros K. cbn [pUnary]. rewrite K. reflexivity. Qed.
Lemma unary_par n r : (match r with TOp 41 :: _ => False | _ => True end) -> pUnary (S n) (TOp 40 :: r) = match pExpr n 0 r with
                   | Some (a, TOp 41 :: r) => Some (a, r)
                   | Some (a, TOp 44 :: r) => match pItems n 41 r with Some (l, r) => Some (ETuple (a :: l), r) | None => None end
                   | _ => None
                   end.
Proof.
  intros N. cbn [pUnary]. change (40 =? 45) with false. change (40 =? 91) with false. change (40 =? 123) with false. change (40 =? 40) with true. cbv iota.
  destruct r as [|t r]; [reflexivity|]. destruct t as [| | | |c|]; try reflexivity.
  destruct c as [|c|c]; try reflexivity. do 6 (try (destruct c as [c|c|]; try reflexivity)). destruct N.
Qed.
Lemma G_nonempty p ts e : G p ts e -> exists t r, ts = t :: r /\ t <> TOp 41.
Proof.
  intros H. induction H as [p z|p x K|p ts e H IH|p ts e H IH|p x ts e K H IH|p o q op ts us a b Q L H1 IH1 H2 IH2];
    try (do 2 eexists; split; [reflexivity|discriminate]).
  destruct IH1 as (t & r & -> & N). do 2 eexists. split; [reflexivity|exact N].
Qed.
Lemma not_close p ts e r : G p ts e -> match ts ++ r with TOp 41 :: _ => False | _ => True end.
Proof.
  intros H. destruct (G_nonempty p ts e H) as (t & u & -> & N). cbn [app]. destruct t as [| | | |c|]; auto.
  destruct c as [|c|c]; auto. do 6 (try (destruct c as [c|c|]; auto)).
Qed.
(** The parser needs [k] steps to get to the rest, and [m] more inside; an operand of
    level 5 is parsed by [pUnary]. *)
Lemma parse_G p ts e : G p ts e -> p <= 5 ->
  (exists k m, (1 <= k)%nat /\ (1 <= m)%nat /\ (k + m <= 2 * length ts)%nat /\
     forall n p' r, (m <= n)%nat -> p' <= p -> ends_at (p + 1) r -> pExpr (k + n) p' (ts ++ r) = pLoop n p' e r) /\
  (p = 5 -> exists m, (1 <= m)%nat /\ (m < 2 * length ts)%nat /\
     forall n r, (m <= n)%nat -> ends_at 5 r -> pUnary n (ts ++ r) = Some (e, r)).
Proof.
  intros H. induction H as [p z|p x K|p ts e H IH|p ts e H IH|p x ts e K H IH|p o q op ts us a b Q L H1 IH1 H2 IH2]; intros P5.
  - assert (U : forall n r, (1 <= n)%nat -> pUnary n ([TInt z] ++ r) = Some (EInt z, r)) by (intros [|n] r N; [lia|reflexivity]).
    split.
    + exists 1%nat, 1%nat. split; [lia|]. split; [lia|]. split; [cbn; lia|]. intros n p' r N _ _. cbn [Nat.add pExpr]. rewrite U by lia. reflexivity.
    + intros _. exists 1%nat. split; [lia|]. split; [cbn; lia|]. intros n r N _. apply U. lia.
  - assert (U : forall n r q, (1 <= n)%nat -> ends_at q r -> pUnary n ([TName x] ++ r) = Some (EName x, r)).
    { intros [|n] r q N E; [lia|]. apply unary_name; [exact K|]. apply (ends_call q). exact E. }
    split.
    + exists 1%nat, 1%nat. split; [lia|]. split; [lia|]. split; [cbn; lia|]. intros n p' r N _ E. cbn [Nat.add pExpr]. rewrite (U _ _ _ N E). reflexivity.
    + intros _. exists 1%nat. split; [lia|]. split; [cbn; lia|]. intros n r N E. exact (U _ _ _ N E).
  - destruct IH as [(k & m & K1 & M1 & KM & IH) _]; [lia|].
    assert (U : forall n r, (k + m + 1 <= n)%nat -> pUnary n ((TOp 40 :: ts ++ [TOp 41]) ++ r) = Some (e, r)).
    { intros [|n] r N; [lia|]. cbn [app]. rewrite <- app_assoc. cbn [app]. rewrite unary_par by (apply (not_close 0 ts e); exact H).
      replace n with (k + (n - k))%nat by lia. rewrite IH; [|lia|lia|cbn; discriminate].
      destruct (n - k)%nat as [|n'] eqn:E; [lia|]. rewrite pLoop_end by (cbn; discriminate). reflexivity. }
    split.
    + exists 1%nat, (k + m + 1)%nat. split; [lia|]. split; [lia|]. split; [cbn [length]; rewrite app_length; cbn; lia|].
      intros n p' r N _ _. change (1 + n)%nat with (S n). cbn [pExpr]. rewrite U by lia. reflexivity.
    + intros _. exists (k + m + 1)%nat. split; [lia|]. split; [cbn [length]; rewrite app_length; cbn; lia|]. intros n r N _. apply U. exact N.
  - destruct IH as [_ IH]; [lia|]. destruct (IH eq_refl) as (m & M1 & ML & IH'). clear IH.
    assert (U : forall n r, (m + 1 <= n)%nat -> ends_at 5 r -> pUnary n ((TOp 45 :: ts) ++ r) = Some (ENeg e, r)).
    { intros [|n] r N E; [lia|]. cbn [app pUnary]. change (45 =? 45) with true. cbv iota. rewrite IH'; [reflexivity|lia|exact E]. }
    split.
    + exists 1%nat, (m + 1)%nat. split; [lia|]. split; [lia|]. split; [cbn [length]; lia|].
      intros n p' r N _ E. change (1 + n)%nat with (S n). cbn [pExpr]. rewrite U; [reflexivity|lia|]. clear - E P5. destruct r as [|[] r]; auto. cbn [ends_at] in *. destruct (prec c) as [[x o]|] eqn:Q; auto. apply prec_range in Q. lia.
    + intros _. exists (m + 1)%nat. split; [lia|]. split; [cbn [length]; lia|]. intros n r N E. apply U; assumption.
  - destruct IH as [(k & m & K1 & M1 & KM & IH) _]; [lia|].
    assert (U : forall n r, (k + m + 1 <= n)%nat -> pUnary n ((TName x :: TOp 40 :: ts ++ [TOp 41]) ++ r) = Some (ECall (EName x) e, r)).
    { intros [|n] r N; [lia|]. cbn [app]. rewrite <- app_assoc. cbn [app]. rewrite unary_call by exact K.
      replace n with (k + (n - k))%nat by lia. rewrite IH; [|lia|lia|cbn; discriminate].
      destruct (n - k)%nat as [|n'] eqn:E; [lia|]. rewrite pLoop_end by (cbn; discriminate). reflexivity. }
    split.
    + exists 1%nat, (k + m + 1)%nat. split; [lia|]. split; [lia|]. split; [cbn [length]; rewrite app_length; cbn; lia|].
      intros n p' r N _ _. change (1 + n)%nat with (S n). cbn [pExpr]. rewrite U by lia. reflexivity.
    + intros _. exists (k + m + 1)%nat. split; [lia|]. split; [cbn [length]; rewrite app_length; cbn; lia|]. intros n r N _. apply U. exact N.
  - pose proof (prec_range _ _ _ Q) as RQ. destruct IH1 as [(k1 & m1 & K1 & M1 & KM1 & IH1) _]; [lia|]. destruct IH2 as [(k2 & m2 & K2 & M2 & KM2 & IH2) _]; [lia|].
    split; [|intros ->; lia]. exists (k1 + 1)%nat, (k2 + m2 + m1)%nat. split; [lia|]. split; [lia|]. split; [rewrite app_length; cbn [length]; lia|].
    intros n p' r N Lp E. rewrite <- app_assoc. cbn [app]. replace (k1 + 1 + n)%nat with (k1 + (S n))%nat by lia.
    rewrite IH1; [|lia|lia|cbn [ends_at]; rewrite Q; lia]. cbn [pLoop]. rewrite Q. assert (p' <? q = true) as -> by lia.
    replace n with (k2 + (n - k2))%nat at 1 by lia. rewrite IH2; [|lia|lia|apply (ends_weaken (p + 1)); [lia|exact E]].
    destruct (n - k2)%nat as [|n'] eqn:E'; [lia|]. rewrite pLoop_end; [reflexivity|]. apply (ends_weaken (p + 1)); [lia|exact E].
Qed.
Theorem parse_expression ts e n r : G 0 ts e -> (2 * length ts + 1 <= n)%nat -> ends_at 0 r -> pExpr n 0 (ts ++ r) = Some (e, r).
Proof.
  intros H N E. destruct (parse_G 0 ts e H ltac:(lia)) as [(k & m & K & M & KM & P) _].
  replace n with (k + (n - k))%nat by lia. rewrite P; [|lia|lia|apply (ends_weaken 0); [lia|exact E]].
  destruct (n - k)%nat as [|n'] eqn:Q; [lia|]. apply pLoop_end. exact E.
Qed.

(** ** The text *)
Lemma L_par d b r : L d b (40 :: r) = ocons (TOp 40) (L (S d) false r).
Proof. reflexivity. Qed.
Lemma L_par_close d b r : L (S d) b (41 :: r) = ocons (TOp 41) (L d false r).
Proof. reflexivity. Qed.
Lemma L_op1 d b c r : c = 124 \/ c = 38 \/ c = 43 \/ c = 42 -> L d b (c :: r) = ocons (TOp c) (L d false r).
Proof. intros [->|[->|[->| ->]]]; reflexivity. Qed.
Lemma L_minus d b r : hd 0 r <> 62 -> L d b (45 :: r) = ocons (TOp 45) (L d false r).
Proof.
  intros H. unfold L at 1. cbn [length lexF]. change (45 =? 10) with false. change (blank 45) with false. change (45 =? 35) with false.
  assert (starts [34; 34; 34] (45 :: r) = false) as -> by reflexivity. change ((45 =? 34) || (45 =? 39)) with false. change (letter 45) with false. change (digit 45) with false.
  assert (starts [60; 60] (45 :: r) = false) as -> by reflexivity. assert (starts [62; 62] (45 :: r) = false) as -> by reflexivity.
  assert (starts [45; 62] (45 :: r) = false) as ->.
  { destruct r as [|c r]; [reflexivity|]. cbn [starts hd] in *. change (45 =? 45) with true. cbv iota. destruct (62 =? c) eqn:E; [apply Z.eqb_eq in E; congruence|reflexivity]. }
  reflexivity.
Qed.
Lemma L_shl d b r : L d b (60 :: 60 :: r) = ocons (TOp 0x3C3C) (L d false r).
Proof.
  unfold L at 1. cbn [length]. assert (E : forall n, lexF (S n) d b (60 :: 60 :: r) = ocons (TOp 0x3C3C) (lexF n d false r)).
  { intros n. cbn [lexF]. assert (starts [34; 34; 34] (60 :: 60 :: r) = false) as -> by reflexivity. assert (starts [60; 60] (60 :: 60 :: r) = true) as -> by (destruct r; reflexivity). reflexivity. }
  rewrite E. f_equal. apply L_eq. lia.
Qed.
Lemma L_shr d b r : L d b (62 :: 62 :: r) = ocons (TOp 0x3E3E) (L d false r).
Proof.
  unfold L at 1. cbn [length]. assert (E : forall n, lexF (S n) d b (62 :: 62 :: r) = ocons (TOp 0x3E3E) (lexF n d false r)).
  { intros n. cbn [lexF]. assert (starts [34; 34; 34] (62 :: 62 :: r) = false) as -> by reflexivity. assert (starts [60; 60] (62 :: 62 :: r) = false) as -> by reflexivity.
    assert (starts [62; 62] (62 :: 62 :: r) = true) as -> by (destruct r; reflexivity). reflexivity. }
  rewrite E. f_equal. apply L_eq. lia.
Qed.
Lemma L_blanks d a r : blanks a -> L d false (a ++ r) = L d false r.
Proof.
  induction a as [|c a IH]; intros H; [reflexivity|]. inversion H as [|? ? B H']; subst. cbn [app]. rewrite L_blank; [apply IH; exact H'|]. unfold blank. lia.
Qed.
Lemma bound_blanks a r : blanks a -> bound r -> bound (a ++ r).
Proof. intros H B. destruct a as [|c a]; [exact B|]. inversion H as [|? ? X _]; subst. cbn. destruct X as [->| ->]; reflexivity. Qed.
Lemma blanks_hd a r : blanks a -> hd 0 r <> 62 -> hd 0 (a ++ r) <> 62.
Proof. intros H B. destruct a as [|c a]; [exact B|]. inversion H as [|? ? X _]; subst. cbn. lia. Qed.
Definition opTok (o : str) : Z := match o with [c] => c | [c; d] => c * 256 + d | _ => 0 end.
Lemma operator_tok o q f ok : operator o q f ok -> exists op, prec (opTok o) = Some (q, op) /\
  (forall x y, ok y -> binop_val op (VInt x) (VInt y) = Ok (VInt (f x y))) /\ (forall r, bound (o ++ r)) /\
  forall d r, hd 0 r <> 62 -> L d false (o ++ r) = ocons (TOp (opTok o)) (L d false r).
Proof.
  intros H. destruct H.
  - exists OpOr. split; [reflexivity|]. split; [reflexivity|]. split; [reflexivity|]. intros d r _. apply L_op1. auto.
  - exists OpAnd. split; [reflexivity|]. split; [reflexivity|]. split; [reflexivity|]. intros d r _. apply L_op1. auto.
  - exists OpShl. split; [reflexivity|]. split; [|split; [reflexivity|intros d r _; apply L_shl]].
    intros x y N. cbn [binop_val]. assert (y <? 0 = false) as -> by lia. rewrite Z.shiftl_mul_pow2 by exact N. reflexivity.
  - exists OpShr. split; [reflexivity|]. split; [|split; [reflexivity|intros d r _; apply L_shr]].
    intros x y N. cbn [binop_val]. assert (y <? 0 = false) as -> by lia. rewrite Z.shiftr_div_pow2 by exact N. reflexivity.
  - exists OpAdd. split; [reflexivity|]. split; [reflexivity|]. split; [reflexivity|]. intros d r _. apply L_op1. auto.
  - exists OpSub. split; [reflexivity|]. split; [reflexivity|]. split; [reflexivity|]. intros d r N. apply L_minus. exact N.
  - exists OpMul. split; [reflexivity|]. split; [reflexivity|]. split; [reflexivity|]. intros d r _. apply L_op1. auto.
Qed.
(** an expression begins with a letter, a digit, "(" or "-" *)
Lemma means_first names mask p s z : means names mask p s z -> exists c w, s = c :: w /\ (wordChar c = true \/ c = 40 \/ c = 45).
Proof.
  intros H. induction H as [p s z N|p x z I N|p a s b z A B H IH|p a s z A H IH|p a b s c z M A B C H IH P|p s a o b t x y q f ok O L A B H1 IH1 H2 IH2 K].
  - destruct (numeral_form s z N) as (c & w & -> & D & _). exists c, w. split; [reflexivity|left]. apply digit_word. exact D.
  - destruct I as [I _]. destruct x as [|c w]; [destruct I|]. exists c, w. split; [reflexivity|left]. apply letter_word. apply I.
  - do 2 eexists. split; [reflexivity|]. right. left. reflexivity.
  - do 2 eexists. split; [reflexivity|]. right. right. reflexivity.
  - do 2 eexists. split; [reflexivity|]. left. reflexivity.
  - destruct IH1 as (c & w & -> & C). do 2 eexists. split; [reflexivity|exact C].
Qed.
Lemma means_hd names mask p s z r : means names mask p s z -> hd 0 (s ++ r) <> 62.
Proof. intros H. destruct (means_first _ _ _ _ _ H) as (c & w & -> & C). cbn [app hd]. intros ->. destruct C as [C|[C|C]]; [discriminate C|discriminate C|discriminate C]. Qed.
Lemma oapp_app {A} (x y : list A) l : oapp x (oapp y l) = oapp (x ++ y) l.
Proof. destruct l; [cbn; rewrite app_assoc|]; reflexivity. Qed.
Definition agrees (names : str -> option Z) (mask : bool) (env : dict pval) : Prop :=
  (forall x z, names x = Some z -> dict_find env x = Some (VInt z)) /\ (mask = true -> dict_find env (lit "U_MASK") = Some VMask).
Theorem means_read names mask p s z : means names mask p s z -> exists ts e, G p ts e /\
  (forall d r, bound r -> L d false (s ++ r) = oapp ts (L d false r)) /\
  forall env, agrees names mask env -> eval env e = Ok (VInt z).
Proof.
  intros H. induction H as [p s z N|p x z I N|p a s b z A B H IH|p a s z A H IH|p a b s c z M A B C H IH P|p s a o b t x y q f ok O L A B H1 IH1 H2 IH2 K].
  - exists [TInt z], (EInt z). split; [constructor|]. split; [|reflexivity]. intros d r R. rewrite (L_numeral d false s z r N R). destruct (ParseFacts.L d false r); reflexivity.
  - exists [TName x], (EName x). split; [constructor; apply I|]. split.
    + intros d r R. rewrite (L_ident d false x r I R). destruct (ParseFacts.L d false r); reflexivity.
    + intros env [E _]. cbn [eval]. rewrite (E _ _ N). reflexivity.
  - destruct IH as (ts & e & T & LX & V). exists (TOp 40 :: ts ++ [TOp 41]), e. split; [constructor; exact T|]. split; [|exact V].
    intros d r R. rewrite <- !app_assoc. change (lit "(" ++ a ++ s ++ b ++ lit ")" ++ r) with (40 :: a ++ s ++ b ++ 41 :: r). rewrite L_par, (L_blanks _ a) by exact A.
    rewrite LX by (apply bound_blanks; [exact B|reflexivity]). rewrite (L_blanks _ b) by exact B. rewrite L_par_close.
    destruct (ParseFacts.L d false r); cbn [ocons oapp]; [rewrite <- app_comm_cons, <- app_assoc|]; reflexivity.
  - destruct IH as (ts & e & T & LX & V). exists (TOp 45 :: ts), (ENeg e). split; [constructor; exact T|]. split.
    + intros d r R. rewrite <- !app_assoc. change (lit "-" ++ a ++ s ++ r) with (45 :: a ++ s ++ r). rewrite L_minus by (apply blanks_hd; [exact A|apply (means_hd _ _ _ _ _ r H)]).
      rewrite (L_blanks _ a) by exact A. rewrite LX by exact R. apply ocons_app.
    + intros env E. cbn [eval]. rewrite (V env E). reflexivity.
  - destruct IH as (ts & e & T & LX & V). exists (TName (lit "U_MASK") :: TOp 40 :: ts ++ [TOp 41]), (ECall (EName (lit "U_MASK")) e). split; [constructor; [reflexivity|exact T]|]. split.
    + intros d r R. rewrite <- !app_assoc. rewrite (L_ident d false (lit "U_MASK")); [|repeat split|apply bound_blanks; [exact A|reflexivity]]. rewrite (L_blanks _ a) by exact A.
      change (lit "(" ++ b ++ s ++ c ++ lit ")" ++ r) with (40 :: b ++ s ++ c ++ 41 :: r). rewrite L_par, (L_blanks _ b) by exact B.
      rewrite LX by (apply bound_blanks; [exact C|reflexivity]). rewrite (L_blanks _ c) by exact C. rewrite L_par_close.
      destruct (ParseFacts.L d false r); cbn [ocons oapp]; [rewrite <- !app_comm_cons, <- app_assoc|]; reflexivity.
    + intros env E. cbn [eval]. rewrite (proj2 E M), (V env E). cbn [bind]. assert (z <? 0 = false) as -> by lia. rewrite Z.shiftl_1_l. reflexivity.
  - destruct IH1 as (ts & e1 & T1 & LX1 & V1). destruct IH2 as (us & e2 & T2 & LX2 & V2). destruct (operator_tok o q f ok O) as (op & Q & BV & BO & LO).
    exists (ts ++ TOp (opTok o) :: us), (EBin op e1 e2). split; [apply (G_bin p (opTok o) q); assumption|]. split.
    + intros d r R. rewrite <- !app_assoc. rewrite LX1 by (apply bound_blanks; [exact A|apply BO]). rewrite (L_blanks _ a) by exact A.
      rewrite LO by (apply blanks_hd; [exact B|apply (means_hd _ _ _ _ _ r H2)]). rewrite (L_blanks _ b) by exact B. rewrite LX2 by exact R. rewrite ocons_app, oapp_app. reflexivity.
    + intros env E. cbn [eval]. rewrite (V1 env E), (V2 env E). cbn [bind]. apply BV. exact K.
Qed.

(** ** An assignment and its comment *)
Lemma L_comment b c r : Forall (fun x => x <> 10) c -> L 0 b (35 :: c ++ 10 :: r) = L 0 b (10 :: r).
Proof.
  intros H. assert (SP : span (fun x => negb (x =? 10)) (c ++ 10 :: r) = (c, 10 :: r)).
  { apply span_intro; [|reflexivity]. apply forallb_forall. intros x I. rewrite Forall_forall in H. specialize (H x I). lia. }
  assert (E : forall n, lexF (S n) 0 b (35 :: c ++ 10 :: r) = lexF n 0 b (10 :: r)).
  { intros n. cbn [lexF]. change (35 =? 10) with false. change (blank 35) with false. change (35 =? 35) with true. cbv iota. rewrite SP. reflexivity. }
  unfold L at 1. cbn [length]. rewrite E. apply L_eq. rewrite app_length. cbn. lia.
Qed.
(** what follows a value on its line: nothing, or blanks and a comment *)
Inductive lineEnd : str -> Prop :=
| le_nil : lineEnd []
| le_comment a c : blanks a -> Forall (fun x => x <> 10) c -> lineEnd (a ++ 35 :: c).
Lemma L_lineEnd t r : lineEnd t -> L 0 false (t ++ 10 :: r) = ocons TNl (L 0 true r).
Proof.
  intros [|a c A C]; [apply L_nl|]. rewrite <- app_assoc. rewrite L_blanks by exact A. cbn [app]. rewrite L_comment by exact C. apply L_nl.
Qed.
Lemma bound_lineEnd t r : lineEnd t -> bound (t ++ 10 :: r).
Proof. intros [|a c A C]; [reflexivity|]. rewrite <- app_assoc. apply bound_blanks; [exact A|reflexivity]. Qed.
Section M.
Variable mods : str -> option (dict pval).
Lemma reads_means names mask v z x t s l : means names mask 0 v z -> ident x -> lineEnd t -> reads mods s l ->
  exists e, reads mods (x ++ lit " = " ++ v ++ t ++ 10 :: s) (SAssign x e :: l) /\ forall env, agrees names mask env -> eval env e = Ok (VInt z).
Proof.
  intros M I T (ts & A & B). destruct (means_read _ _ _ _ _ M) as (us & e & H & LX & V). exists e. split; [|exact V].
  exists (TName x :: TOp 61 :: us ++ TNl :: ts). split.
  - rewrite (L_ident _ _ x) by (try exact I; reflexivity). change (lit " = " ++ v ++ t ++ 10 :: s) with (32 :: 61 :: 32 :: v ++ t ++ 10 :: s).
    rewrite L_space, L_equals, L_space. rewrite LX by (apply bound_lineEnd; exact T). rewrite L_lineEnd by exact T. rewrite A. reflexivity.
  - apply assign_step; [apply I| |exact B]. unfold pRight. rewrite (parse_expression us e); [reflexivity|exact H| |exact Logic.I].
    rewrite app_length. cbn [length]. lia.
Qed.
End M.
