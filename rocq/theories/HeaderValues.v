(** * The values in the module made of a header *)
From Coq Require Import ZArith List Bool Lia ZifyBool String.
From Verif Require Import Py Dict PyStr Utilities CharNames PyText HeaderFile HeaderFacts HeaderDecls TextFacts PyModule PyParse ParseFacts ExprFacts PyEval Prop_Outputs Prop_Values.
Import ListNotations.
Open Scope string_scope.
Open Scope list_scope.
Open Scope Z_scope.
Local Notation length := List.length.
Local Notation concat := List.concat.

(** ** The values of the declarations, in C *)
Definition names := str -> option Z.
Definition upd (f : names) (x : str) (z : Z) : names := fun y => if str_eqb y x then Some z else f y.
Definition noName : names := fun _ => None.
Definition oneLine (c : str) : Prop := Forall (fun x => x <> 10) c.
(** a name that Python can use too; U_MASK is a function *)
Definition variable (x : str) : Prop := ident x /\ x <> lit "U_MASK".
(** the enumerators: the value of the text, or one more than the value before *)
Inductive enumerates : names -> Z -> list entry -> list (str * Z) -> Prop :=
| en_nil f n : enumerates f n [] []
| en_next f n e es bs : variable (e_name e) -> oneLine (e_comment e) -> e_text e = None ->
    enumerates (upd f (e_name e) n) (n + 1) es bs -> enumerates f n (e :: es) ((e_name e, n) :: bs)
| en_text f n e es bs v z : variable (e_name e) -> oneLine (e_comment e) -> e_text e = Some v -> means f false 0 v z ->
    enumerates (upd f (e_name e) z) (z + 1) es bs -> enumerates f n (e :: es) ((e_name e, z) :: bs).
(** the names and values that the declarations give, in order: macros with a value that are
    not ignored, and enumerators; a macro can use the names before it, an enumerator those
    of its enumeration *)
Inductive declares (mask : bool) (ignore : list str) : names -> list decl -> list (str * Z) -> Prop :=
| de_nil f : declares mask ignore f [] []
| de_value f x sp v c ds z bs : ~ In x ignore -> variable x -> oneLine c -> means f mask 0 v z ->
    declares mask ignore (upd f x z) ds bs -> declares mask ignore f (DValue x sp v c :: ds) ((x, z) :: bs)
| de_ignored f x sp v c ds bs : In x ignore -> declares mask ignore f ds bs -> declares mask ignore f (DValue x sp v c :: ds) bs
| de_flag f x c ds bs : declares mask ignore f ds bs -> declares mask ignore f (DFlag x c :: ds) bs
| de_call f x r c ds bs : declares mask ignore f ds bs -> declares mask ignore f (DCall x r c :: ds) bs
| de_other f l c ds bs : declares mask ignore f ds bs -> declares mask ignore f (DOther l c :: ds) bs
| de_enum f h c br es cl c2 ds bs1 bs : enumerates noName 0 es bs1 ->
    declares mask ignore (fold_left (fun g b => upd g (fst b) (snd b)) bs1 f) ds bs -> declares mask ignore f (DEnum h c br es cl c2 :: ds) (bs1 ++ bs).
(** [pyeval] evaluates expressions *)
Definition evaluates (pyeval : str -> dict Z -> res Z) : Prop :=
  forall v z vars, means (dict_find vars) false 0 v z -> pyeval v vars = Ok z.

(** ** Names and environments *)
Lemma upd_same f x z : upd f x z x = Some z.
Proof. unfold upd. rewrite str_eqb_refl. reflexivity. Qed.
Lemma dict_find_set {V} (d : dict V) x v y : dict_find (dict_set d x v) y = if str_eqb y x then Some v else dict_find d y.
Proof.
  induction d as [|[k w] d IH]; cbn [dict_set dict_find].
  - destruct (str_eqb y x) eqn:E; [apply str_eqb_eq in E; subst; rewrite str_eqb_refl; reflexivity|].
    destruct (str_eqb x y) eqn:E2; [apply str_eqb_eq in E2; subst; rewrite str_eqb_refl in E; discriminate|reflexivity].
  - destruct (str_eqb k x) eqn:K; cbn [dict_find].
    + apply str_eqb_eq in K. subst k. destruct (str_eqb x y) eqn:E; [apply str_eqb_eq in E; subst; rewrite str_eqb_refl; reflexivity|].
      destruct (str_eqb y x) eqn:E2; [apply str_eqb_eq in E2; subst; rewrite str_eqb_refl in E; discriminate|reflexivity].
    + rewrite IH. destruct (str_eqb k y) eqn:E; [|reflexivity]. apply str_eqb_eq in E. subst y. rewrite K. reflexivity.
Qed.
Lemma means_weaken f g m m' p s z : (forall x w, f x = Some w -> g x = Some w) -> (m = true -> m' = true) -> means f m p s z -> means g m' p s z.
Proof.
  intros H M D. induction D; [apply m_num|apply m_name|apply m_par|apply m_neg|apply m_mask|eapply m_op]; eauto.
Qed.
Lemma agrees_set f mask env x z : x <> lit "U_MASK" -> agrees f mask env -> agrees (upd f x z) mask (dict_set env x (VInt z)).
Proof.
  intros N [A B]. split.
  - intros y w E. rewrite dict_find_set. unfold upd in E. destruct (str_eqb y x); [congruence|apply A; exact E].
  - intros M. rewrite dict_find_set. destruct (str_eqb (lit "U_MASK") x) eqn:E; [apply str_eqb_eq in E; congruence|apply B; exact M].
Qed.

(** ** Numerals that str makes *)
Lemma decDigits_decimal fuel : forall n acc, 0 <= n < 2 ^ Z.of_nat fuel -> (0 < fuel)%nat ->
  exists ds, decDigits fuel n acc = ds ++ acc /\ decimal ds /\ value 10 (map (fun c => c - 48) ds) = n /\ (0 < n -> hd 0 ds <> 48).
Proof.
  induction fuel as [|m IH]; intros n acc R F; [lia|]. cbn [decDigits]. destruct (n <? 10) eqn:E.
  - exists [48 + n]. split; [reflexivity|]. split; [|split; [unfold value; cbn [map fold_left]; lia|cbn [hd]; lia]]. split; [discriminate|]. split; [constructor; [lia|constructor]|]. cbn [hd]. intros ->. reflexivity.
  - assert (P : 2 ^ Z.of_nat (S m) = 2 * 2 ^ Z.of_nat m) by (rewrite Nat2Z.inj_succ, Z.pow_succ_r by lia; lia).
    assert (D : 0 <= n / 10 < 2 ^ Z.of_nat m) by (split; [apply Z.div_pos; lia|apply Z.div_lt_upper_bound; lia]).
    assert (Q : 0 < n / 10) by (apply Z.div_str_pos; lia).
    assert (M : (0 < m)%nat) by (destruct m; [cbn in *; lia|lia]).
    destruct (IH (n / 10) (48 + n mod 10 :: acc) D M) as (ds & -> & (N & A & Z0) & V & H0). exists (ds ++ [48 + n mod 10]). split; [rewrite <- app_assoc; reflexivity|].
    pose proof (Z.mod_pos_bound n 10 ltac:(lia)) as B. pose proof (Z.div_mod n 10 ltac:(lia)) as DM.
    assert (HD : hd 0 (ds ++ [48 + n mod 10]) <> 48) by (destruct ds as [|d ds]; [contradiction|]; cbn [app hd] in *; apply H0; exact Q).
    split; [|split; [|intros _; exact HD]].
    + split; [destruct ds; discriminate|]. split; [apply Forall_app; split; [exact A|]; constructor; [lia|constructor]|]. intros X. contradiction.
    + rewrite map_app. unfold value in *. rewrite fold_left_app, V. cbn [map fold_left]. lia.
Qed.
Lemma dec_pos n : 0 <= n -> numeral (dec n) n.
Proof.
  intros H. unfold dec. replace (n <? 0) with false by lia.
  destruct (decDigits_decimal (S (Z.to_nat (Z.log2 n))) n []) as (ds & -> & D & V & _); [|lia|rewrite app_nil_r; rewrite <- V; constructor; exact D].
  split; [exact H|]. rewrite Nat2Z.inj_succ, Z2Nat.id by apply Z.log2_nonneg. destruct (Z.eq_dec n 0) as [->|NZ]; [reflexivity|].
  apply Z.log2_spec. lia.
Qed.
Lemma means_dec f m n : means f m 0 (dec n) n.
Proof.
  destruct (Z.lt_ge_cases n 0) as [L|L].
  - rewrite (dec_neg n L). replace n with (- - n) at 2 by lia. apply (m_neg f m 0 [] (dec (- n)) (- n)); [constructor|]. apply m_num. apply dec_pos. lia.
  - apply m_num. apply dec_pos. lia.
Qed.

(** ** The lines of the module *)
Definition extends (f g : names) : Prop := forall x w, g x = Some w -> f x = Some w.
Inductive script (mask : bool) : names -> list str -> list (str * Z) -> Prop :=
| sc_nil f : script mask f [] []
| sc_cons f g m x v c z ls bs : extends f g -> (m = true -> mask = true) -> means g m 0 v z -> variable x -> oneLine c ->
    script mask (upd f x z) ls bs -> script mask f (written x v c :: ls) ((x, z) :: bs).
Definition numOf (vars : dict Z) : names := dict_find vars.
Lemma upd_extends f g x z : extends f g -> extends (upd f x z) (upd g x z).
Proof. intros H y w. unfold upd. destruct (str_eqb y x); [auto|apply H]. Qed.
(** the enumerators: the values that the translator computes are those of C *)
Lemma enum_lines pyeval mask : evaluates pyeval -> forall h n es bs, enumerates h n es bs ->
  forall vars f ls bs', (forall x, h x = dict_find vars x) -> extends f h -> script mask (fold_left (fun g b => upd g (fst b) (snd b)) bs f) ls bs' ->
  exists zs, numbered pyeval n vars es zs /\ script mask f (map (fun '(e, z) => entry_out e z) (combine es zs) ++ ls) (bs ++ bs').
Proof.
  intros EV h n es bs H. induction H as [h n|h n e es bs V O T H IH|h n e es bs v z V O T M H IH]; intros vars f ls bs' HV EX SC.
  - exists []. split; [constructor|exact SC].
  - destruct (IH (dict_set vars (e_name e) n) (upd f (e_name e) n) ls bs') as (zs & N & SC').
    + intros x. unfold upd. rewrite dict_find_set. destruct (str_eqb x (e_name e)); [reflexivity|apply HV].
    + apply upd_extends. exact EX.
    + exact SC.
    + exists (n :: zs). split; [apply num_next; assumption|]. cbn [combine map app]. unfold entry_out at 1. rewrite T.
      apply (sc_cons mask f h false); [exact EX|discriminate|apply means_dec|exact V|exact O|exact SC'].
  - destruct (IH (dict_set vars (e_name e) z) (upd f (e_name e) z) ls bs') as (zs & N & SC').
    + intros x. unfold upd. rewrite dict_find_set. destruct (str_eqb x (e_name e)); [reflexivity|apply HV].
    + apply upd_extends. exact EX.
    + exact SC.
    + exists (z :: zs). split.
      * eapply num_text; [exact T| |exact N]. apply EV. apply (means_weaken h (dict_find vars) false false); [|auto|exact M]. intros x w E. rewrite <- HV. exact E.
      * cbn [combine map app]. unfold entry_out at 1. rewrite T. apply (sc_cons mask f h false); [exact EX|discriminate|exact M|exact V|exact O|exact SC'].
Qed.
Lemma decl_lines_script pyeval mask ignore : evaluates pyeval -> forall f ds bs, declares mask ignore f ds bs ->
  exists outs, Forall2 (decl_out pyeval ignore) ds outs /\ script mask f (concat outs) bs.
Proof.
  intros EV f ds bs H. induction H as [f|f x sp v c ds z bs I V O M H IH|f x sp v c ds bs I H IH|f x c ds bs H IH|f x r c ds bs H IH|f l c ds bs H IH|f h c br es cl c2 ds bs1 bs E H IH].
  - exists []. split; constructor.
  - destruct IH as (outs & F & SC). exists ([written x v c] :: outs). split; [constructor; [right; auto|exact F]|]. cbn [concat app].
    apply (sc_cons mask f f mask); auto. intros y w Y. exact Y.
  - destruct IH as (outs & F & SC). exists ([] :: outs). split; [constructor; [left; auto|exact F]|exact SC].
  - destruct IH as (outs & F & SC). exists ([] :: outs). split; [constructor; [reflexivity|exact F]|exact SC].
  - destruct IH as (outs & F & SC). exists ([] :: outs). split; [constructor; [reflexivity|exact F]|exact SC].
  - destruct IH as (outs & F & SC). exists ([] :: outs). split; [constructor; [reflexivity|exact F]|exact SC].
  - destruct IH as (outs & F & SC). destruct (enum_lines pyeval mask EV _ _ _ _ E [] f (concat outs) bs) as (zs & N & SC'); [reflexivity|discriminate|exact SC|].
    exists (map (fun '(e, z) => entry_out e z) (combine es zs) :: outs). split; [constructor; [exists zs; auto|exact F]|exact SC'].
Qed.

(** ** Reading them *)
Lemma L_lineEnd_last t : lineEnd t -> L 0 false t = Some [].
Proof.
  intros [|a c A C]; [reflexivity|]. rewrite L_blanks by exact A.
  assert (SP : span (fun x => negb (x =? 10)) c = (c, [])).
  { rewrite <- (app_nil_r c) at 1. apply span_intro; [|exact Logic.I]. apply forallb_forall. intros x I. rewrite Forall_forall in C. specialize (C x I). lia. }
  unfold L. cbn [length lexF]. change (35 =? 10) with false. change (blank 35) with false. change (35 =? 35) with true. cbv iota. rewrite SP. cbn [snd]. destruct (length c); reflexivity.
Qed.
Lemma bound_lineEnd_last t : lineEnd t -> bound t.
Proof. intros [|a c A C]; [exact Logic.I|]. apply bound_blanks; [exact A|reflexivity]. Qed.
Section M.
Variable mods : str -> option (dict pval).
Lemma assign_last x e ts : keyword x = false -> pRight (4 * length ts + 8) ts = Some (e, []) ->
  pStmts mods (S (length (TName x :: TOp 61 :: ts))) (TName x :: TOp 61 :: ts) = Some [SAssign x e].
Proof. intros K R. destruct (keyword_not x K) as [K1 K2]. cbn [pStmts length]. rewrite K1, K2, K, R. reflexivity. Qed.
Lemma reads_means_last f m v z x t : means f m 0 v z -> ident x -> lineEnd t ->
  exists e, reads mods (x ++ lit " = " ++ v ++ t) [SAssign x e] /\ forall env, agrees f m env -> eval env e = Ok (VInt z).
Proof.
  intros M I T. destruct (means_read _ _ _ _ _ M) as (us & e & H & LX & V). exists e. split; [|exact V].
  exists (TName x :: TOp 61 :: us). split.
  - rewrite (L_ident _ _ x) by (try exact I; reflexivity). change (lit " = " ++ v ++ t) with (32 :: 61 :: 32 :: v ++ t).
    rewrite L_space, L_equals, L_space. rewrite LX by (apply bound_lineEnd_last; exact T). rewrite L_lineEnd_last by exact T. cbn [oapp ocons]. rewrite app_nil_r. reflexivity.
  - apply assign_last; [apply I|]. unfold pRight. rewrite <- (app_nil_r us) at 2. rewrite (parse_expression us e); [reflexivity|exact H|lia|exact Logic.I].
Qed.
Lemma written_end x v c : oneLine c -> exists t, written x v c = x ++ lit " = " ++ v ++ t /\ lineEnd t.
Proof.
  intros O. unfold written. destruct c as [|c0 c].
  - exists []. rewrite app_nil_r. split; [reflexivity|constructor].
  - exists (lit "  # " ++ c0 :: c). split; [reflexivity|]. change (lit "  # " ++ c0 :: c) with ([32; 32] ++ 35 :: (32 :: c0 :: c)).
    constructor; [repeat constructor|]. constructor; [discriminate|exact O].
Qed.
Definition bindings (env : dict pval) (bs : list (str * Z)) : dict pval := fold_left (fun env b => dict_set env (fst b) (VInt (snd b))) bs env.
Lemma agrees_sub f g mask m env : extends f g -> (m = true -> mask = true) -> agrees f mask env -> agrees g m env.
Proof. intros E M [A B]. split; auto. Qed.
Lemma script_reads mask f ls bs : script mask f ls bs -> ls <> [] -> exists l, reads mods (linesText ls) l /\ forall env, agrees f mask env -> run env l = Ok (bindings env bs).
Proof.
  intros H. induction H as [f|f g m x v c z ls bs EX MM M V O H IH]; intros N; [contradiction|]. destruct V as [V VM]. destruct (written_end x v c O) as (t & W & T). rewrite W.
  destruct ls as [|y ls].
  - destruct (reads_means_last g m v z x t M V T) as (e & R & EV). exists [SAssign x e]. split; [exact R|]. intros env A. cbn [run step]. rewrite (EV env (agrees_sub _ _ _ _ _ EX MM A)). inversion H; subst. reflexivity.
  - destruct (IH ltac:(discriminate)) as (l & R & RUN). destruct (reads_means mods g m v z x t _ l M V T R) as (e & R' & EV).
    exists (SAssign x e :: l). split.
    + change (linesText ((x ++ lit " = " ++ v ++ t) :: y :: ls)) with ((x ++ lit " = " ++ v ++ t) ++ nl ++ linesText (y :: ls)). rewrite <- !app_assoc. exact R'.
    + intros env A. cbn [run step]. rewrite (EV env (agrees_sub _ _ _ _ _ EX MM A)). cbn [bind]. rewrite (RUN (dict_set env x (VInt z))); [reflexivity|]. apply agrees_set; assumption.
Qed.
(** def U_MASK(x: int) -> int: return 1<<x *)
Lemma reads_mask s l : reads mods s l -> reads mods (lit "def U_MASK(x: int) -> int: return 1<<x" ++ 10 :: s) (SDefMask (lit "U_MASK") :: l).
Proof.
  intros (ts & A & B). exists (TName (lit "def") :: TName (lit "U_MASK") :: maskDef ++ ts). split.
  - assert (E : L 0 true (lit "def U_MASK(x: int) -> int: return 1<<x" ++ 10 :: s) = oapp (TName (lit "def") :: TName (lit "U_MASK") :: removelast maskDef) (L 0 false (10 :: s))).
    { change (lit "def U_MASK(x: int) -> int: return 1<<x" ++ 10 :: s) with (lit "def" ++ 32 :: lit "U_MASK" ++ 40 :: lit "x" ++ 58 :: 32 :: lit "int" ++ 41 :: 32 :: 45 :: 62 :: 32 :: lit "int" ++ 58 :: 32 :: lit "return" ++ 32 :: [49] ++ 60 :: 60 :: lit "x" ++ 10 :: s).
      assert (W : forall d b c w r, letter c = true -> forallb wordChar w = true -> bound r -> L d b ((c :: w) ++ r) = ocons (TName (c :: w)) (L d false r)) by (intros; apply L_name; assumption).
      assert (COL : forall d b r, L d b (58 :: r) = ocons (TOp 58) (L d false r)) by reflexivity.
      assert (ARR : forall d b r, L d b (45 :: 62 :: r) = ocons (TOp 0x2D3E) (L d false r)).
      { intros d b r. unfold L at 1. cbn [length]. assert (X : forall n, lexF (S n) d b (45 :: 62 :: r) = ocons (TOp 0x2D3E) (lexF n d false r)).
        { intros n. cbn [lexF]. assert (starts [34; 34; 34] (45 :: 62 :: r) = false) as -> by reflexivity. assert (starts [45; 62] (45 :: 62 :: r) = true) as -> by (destruct r; reflexivity). reflexivity. }
        rewrite X. f_equal. apply L_eq. lia. }
      rewrite (W 0%nat true 100 [101; 102]) by reflexivity. rewrite L_space. rewrite (W 0%nat false 85 [95; 77; 65; 83; 75]) by reflexivity. rewrite L_par. rewrite (W 1%nat false 120 []) by reflexivity.
      rewrite COL, L_space. rewrite (W 1%nat false 105 [110; 116]) by reflexivity. rewrite L_par_close, L_space, ARR, L_space. rewrite (W 0%nat false 105 [110; 116]) by reflexivity. rewrite COL, L_space.
      rewrite (W 0%nat false 114 [101; 116; 117; 114; 110]) by reflexivity. rewrite L_space. change ([49] ++ 60 :: 60 :: lit "x" ++ 10 :: s) with ((49 :: []) ++ 60 :: 60 :: lit "x" ++ 10 :: s).
      rewrite (L_int 0 false 49 [] _ 1) by reflexivity. rewrite L_shl. rewrite (W 0%nat false 120 []) by reflexivity. destruct (L 0 false (10 :: s)); reflexivity. }
    rewrite E, L_nl, A. reflexivity.
  - cbn [pStmts]. change (str_eqb (lit "def") (lit "from")) with false. change (str_eqb (lit "def") (lit "def")) with true. cbv iota. change (keyword (lit "U_MASK")) with false. cbv iota.
    assert (dropToks maskDef (maskDef ++ ts) = Some ts) as -> by reflexivity. rewrite (pStmts_mono mods _ (length (TName (lit "def") :: TName (lit "U_MASK") :: maskDef ++ ts)) _ _ B); [reflexivity|].
    cbn [length]. rewrite app_length. cbn. lia.
Qed.
Lemma front_only tool o from date : plainText tool -> plainText o -> plainText from -> plainText date -> reads mods (removelast (frontText tool o from date)) [].
Proof.
  intros P1 P2 P3 P4.
  assert (P : plainText (lit "/" ++ nl ++ o ++ lit ", based on " ++ from ++ lit " from ICU" ++ nl ++ nl ++ lit "Generated by " ++ tool ++ lit " on " ++ date ++ nl)).
  { unfold plainText in *. rewrite !Forall_app. repeat split; try assumption; vm_compute; repeat (constructor; [split; discriminate|]); constructor. }
  pose proof (reads_doc mods _ [] [] P (reads_nil mods)) as H. unfold frontText, quotes, nl in *. rewrite !app_assoc in *. rewrite removelast_app by discriminate. cbn [removelast]. rewrite app_nil_r. exact H.
Qed.
End M.
Lemma bindings_find bs : forall env x, dict_find (bindings env bs) x = match fold_left (fun g b => upd g (fst b) (snd b)) bs noName x with Some z => Some (VInt z) | None => dict_find env x end.
Proof.
  assert (G : forall bs (f : names) env env0 x, (forall x, dict_find env x = match f x with Some z => Some (VInt z) | None => dict_find env0 x end) ->
    dict_find (bindings env bs) x = match fold_left (fun g b => upd g (fst b) (snd b)) bs f x with Some z => Some (VInt z) | None => dict_find env0 x end).
  { intros l. induction l as [|[y z] l IH]; intros f env env0 x H; [exact (H x)|]. cbn [bindings fold_left fst snd]. apply IH. intros x'. rewrite dict_find_set. unfold upd. destruct (str_eqb x' y); [reflexivity|exact (H x')]. }
  intros env x. exact (G bs noName env env x (fun y => eq_refl)).
Qed.
(** ** eval *)
Theorem evalText_evaluates : evaluates evalText.
Proof.
  intros v z vars M. destruct (means_read _ _ _ _ _ M) as (ts & e & H & LX & V). unfold evalText. fold (L 0 false v).
  specialize (LX 0%nat [] Logic.I). rewrite app_nil_r in LX. rewrite LX, L_nil. cbn [oapp]. rewrite app_nil_r. rewrite <- (app_nil_r ts) at 2. rewrite (parse_expression ts e); [|exact H|lia|exact Logic.I].
  rewrite V; [reflexivity|]. split; [|discriminate]. intros x w E. clear - E. induction vars as [|[k u] vars IH]; [discriminate|]. cbn [map dict_find] in *. destruct (str_eqb k x); [congruence|apply IH; exact E].
Qed.
