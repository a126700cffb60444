(** * Property C102: the header modules have the values of the C headers *)
From Coq Require Import ZArith List Bool Lia String.
From Verif Require Import Py Dict PyStr Utilities CharNames PyText HeaderFile HeaderFacts HeaderDecls TextFacts BuilderArgs Build BuildFacts PyModule PyParse ParseFacts ExprFacts PyEval HeaderValues Prop_Build Prop_Header Prop_Outputs Prop_Values.
Import ListNotations.
Open Scope string_scope.
Open Scope list_scope.
Open Scope Z_scope.
Local Notation length := List.length.
Local Notation concat := List.concat.

(** ** C102

    For a header whose code is a sequence of declarations (C82, C83) with the names and
    values [bs] ([declares], HeaderValues.v; the values of expressions are those of [means],
    ExprFacts.v): Python reads in the module exactly these names, each bound to its value
    (the last one, where a name has several), and U_MASK in uchar_h.py.
    [evaluates pyeval]: eval gives the value of an expression. *)
Definition maskLine : str := lit "def U_MASK(x: int) -> int: return 1<<x" ++ nl.
Definition valueOf (bs : list (str * Z)) (mask : bool) (x : str) : option pval :=
  match fold_left (fun g b => upd g (fst b) (snd b)) bs noName x with
  | Some z => Some (VInt z)
  | None => if mask && str_eqb x (lit "U_MASK") then Some VMask else None
  end.
Theorem C102_header : forall mods now pyeval s out from guard (mask : bool) ignore text items ds bs,
  evaluates pyeval -> plainText out -> plainText from -> plainText (now out) ->
  header_name guard -> Forall (item_ok guard) items -> linesOf s (flat_map item_lines items) ->
  map getTrailingComment (flat_map item_code items) = flat_map decl_lines ds -> Forall decl_ok ds ->
  declares mask ignore noName ds bs ->
  headerText now pyeval s out from guard (if mask then [maskLine] else []) ignore text ->
  exists env, importText mods text = Ok env /\ forall x, dict_find env x = valueOf bs mask x.
Proof.
  intros mods now pyeval s out from guard mask ignore text items ds bs EV PO PF PD G I SP LN D DE (source & lines & SL & TR & TX).
  destruct (decl_lines_script pyeval mask ignore EV _ _ _ DE) as (outs & F & SC).
  assert (VD : forall n vars, pyeval (dec n) vars = Ok n) by (intros n vars; apply EV; apply means_dec).
  apply C99_lines in SP, SL. rewrite SP in SL. subst source. rewrite (C83_translate_partial guard pyeval ignore items ds outs VD G I LN D F) in TR. injection TR as <-.
  assert (A0 : agrees noName mask (if mask then [(lit "U_MASK", VMask)] else [])) by (split; [discriminate|intros ->; reflexivity]).
  assert (R : exists l, reads mods text l /\ exec l = Ok (bindings (if mask then [(lit "U_MASK", VMask)] else []) bs)).
  { destruct (concat outs) as [|y ys] eqn:Q.
    - assert (bs = []) as -> by (inversion SC; reflexivity). cbn [bindings fold_left]. destruct mask.
      + cbn [app] in TX. rewrite TX. exists [SDefMask (lit "U_MASK")]. split; [|reflexivity]. apply reads_front; try solve_plain; try assumption. cbn [linesText]. apply reads_mask. apply reads_nil.
      + cbn [app] in TX. rewrite TX. exists []. split; [|reflexivity]. apply front_only; try assumption; solve_plain.
    - destruct (script_reads mods mask _ _ _ SC ltac:(discriminate)) as (l & RL & RUN). destruct mask.
      + cbn [app] in TX. rewrite TX. exists (SDefMask (lit "U_MASK") :: l). split; [|exact (RUN _ A0)].
        apply reads_front; try solve_plain; try assumption. change (linesText (maskLine :: y :: ys)) with (maskLine ++ nl ++ linesText (y :: ys)). unfold maskLine. rewrite <- app_assoc. apply reads_mask. apply reads_nl. exact RL.
      + cbn [app] in TX. rewrite TX. exists l. split; [|exact (RUN _ A0)]. apply reads_front; try solve_plain; assumption. }
  destruct R as (l & RL & EX). exists (bindings (if mask then [(lit "U_MASK", VMask)] else []) bs). split; [unfold importText; rewrite (reads_parse mods _ _ RL); exact EX|].
  intros x. rewrite bindings_find. unfold valueOf. destruct (fold_left _ bs noName x); [reflexivity|]. destruct mask; [|reflexivity]. cbn [dict_find andb].
  destruct (str_eqb (lit "U_MASK") x) eqn:E; [apply str_eqb_eq in E; subst x; rewrite str_eqb_refl; reflexivity|].
  destruct (str_eqb x (lit "U_MASK")) eqn:E2; [apply str_eqb_eq in E2; subst x; rewrite str_eqb_refl in E; discriminate|reflexivity].
Qed.
Print Assumptions C102_header.
(** The same after a build, for the four headers. *)
Theorem C102_build : forall mods cwd now pyeval a f g, built_ok cwd now pyeval a f g -> evaluates pyeval ->
  forall out from src guard (mask : bool) ignore,
  In (out, from, src, guard, mask, ignore)
    [(lit "uprops_h.py", lit "uprops.h", lit "common/uprops.h", lit "UPROPS_H", false, []);
     (lit "ucase_h.py", lit "ucase.h", lit "common/ucase.h", lit "UCASE_H", false, [lit "UCASECONTEXT_INITIALIZER"]);
     (lit "uchar_h.py", lit "uchar.h", lit "common/unicode/uchar.h", lit "UCHAR_H", true, [lit "U_NO_NUMERIC_VALUE"]);
     (lit "uscript_h.py", lit "uscript.h", lit "common/unicode/uscript.h", lit "USCRIPT_H", false, [])] ->
  plainText (now out) -> forall s items ds bs, textOf cwd a f src s -> Forall (item_ok guard) items -> linesOf s (flat_map item_lines items) ->
  map getTrailingComment (flat_map item_code items) = flat_map decl_lines ds -> Forall decl_ok ds -> declares mask ignore noName ds bs ->
  exists text env, lookup g (outDirOf cwd a ++ [out]) = Some text /\ importText mods text = Ok env /\ forall x, dict_find env x = valueOf bs mask x.
Proof.
  intros mods cwd now pyeval a f g B EV out from src guard mask ignore IN PD s items ds bs T I SP LN D DE.
  assert (X : exists s' text, textOf cwd a f src s' /\ headerText now pyeval s' out from guard (if mask then [maskLine] else []) ignore text /\ lookup g (outDirOf cwd a ++ [out]) = Some text).
  { apply (C99_headers cwd now pyeval a f g B). cbn [In] in IN |- *. destruct IN as [E|[E|[E|[E|[]]]]]; injection E as <- <- <- <- <- <-; auto. }
  destruct X as (s' & text & T' & H & LK). rewrite <- (textOf_fun _ _ _ _ _ _ T T') in H. clear s' T'.
  assert (P : plainText out /\ plainText from /\ header_name guard).
  { cbn [In] in IN. destruct IN as [E|[E|[E|[E|[]]]]]; injection E as <- <- <- <- <- <-; (split; [solve_plain|split; [solve_plain|reflexivity]]). }
  destruct P as (PO & PF & GN). destruct (C102_header mods now pyeval s out from guard mask ignore text items ds bs EV PO PF PD GN I SP LN D DE H) as (env & IM & V). exists text, env. auto.
Qed.
Print Assumptions C102_build.
(** The reader of PyParse.v with the operators of PyModule.v evaluates expressions, so there
    is such an eval. *)
Theorem C102_eval : forall v z vars, means (dict_find vars) false 0 v z -> evalText v vars = Ok z.
Proof. exact evalText_evaluates. Qed.
Print Assumptions C102_eval.

(** Values that are not of this form make the whole module unreadable or stop the import: a
    numeral with a suffix, a cast, and the name of a macro that is ignored.  A macro that is an
    initializer becomes a tuple. *)
Theorem C102_values_refuted :
  (exists text, translate (lit "A_H") evalText [] (lits ["#define A 1U"; "#define B 2"]) = Ok text /\ forall mods, importText mods (linesText text) = Err SyntaxError) /\
  (exists text, translate (lit "A_H") evalText [] (lits ["#define A ((int32_t)1)"; "#define B 2"]) = Ok text /\ forall mods, importText mods (linesText text) = Err SyntaxError) /\
  (exists text, translate (lit "A_H") evalText [lit "A"] (lits ["#define A 1"; "#define B (A+1)"]) = Ok text /\ forall mods, importText mods (linesText text) = Err NameError) /\
  (exists text, translate (lit "A_H") evalText [] (lits ["#define A 1, 2, 3"; "#define B 2"]) = Ok text /\ forall mods, importText mods (linesText text) = Ok [(lit "A", VTuple [VInt 1; VInt 2; VInt 3]); (lit "B", VInt 2)]).
Proof.
  split; [|split; [|split]]; (eexists; split; [vm_compute; reflexivity|intros mods; vm_compute; reflexivity]).
Qed.
Print Assumptions C102_values_refuted.
(** An enumerator cannot use a macro or an enumerator of another enumeration, as in C. *)
Theorem C102_names_refuted : translate (lit "A_H") evalText [] (lits ["#define A 1"; "enum {"; "B=A,"; "C"; "};"]) = Err NameError.
Proof. vm_compute. reflexivity. Qed.
Print Assumptions C102_names_refuted.

(** Where an expression has no value, importing stops with the exception of Python. *)
Theorem C102_errors : forall env n z, z < 0 -> dict_find env n = None -> dict_find env (lit "U_MASK") = Some VMask ->
  eval env (EName n) = Err NameError /\ eval env (ECall (EName (lit "U_MASK")) (EInt z)) = Err ValueError /\
  (forall x, eval env (EBin OpShl (EInt x) (EInt z)) = Err ValueError /\ eval env (EBin OpShr (EInt x) (EInt z)) = Err ValueError).
Proof.
  intros env n z H N M. cbn [eval]. rewrite N, M. cbn [bind]. replace (z <? 0) with true by lia. repeat split; unfold binop_val; cbn; replace (z <? 0) with true by lia; reflexivity.
Qed.
Print Assumptions C102_errors.
(** the header of C82 and C83, with an expression *)
Definition sample_header : str := concat (lits
  ["/*"; " * Copyright"; " */"; "#ifndef __UCASE_H__"; ""; "#define UCASE_TYPE_MASK 3 /* bits 1..0 */"; "#define UCASE_MORE ((UCASE_TYPE_MASK<<2)|1)"; "enum {"; "    UCASE_NONE,"; "    UCASE_UPPER=0x10, // upper case"; "    UCASE_TITLE,"; "    UCASE_LAST=UCASE_TITLE+5"; "};"; "#endif"]).
Definition header_items : list item :=
  [IComments (lit "/*" ++ [10]) [lit " * Copyright" ++ [10]] (lit " */" ++ [10]); IGuard (lit "#ifndef __UCASE_H__" ++ [10]); IBlank [10];
   ICode (lit "#define UCASE_TYPE_MASK 3 /* bits 1..0 */" ++ [10]); ICode (lit "#define UCASE_MORE ((UCASE_TYPE_MASK<<2)|1)" ++ [10]);
   ICode (lit "enum {" ++ [10]); ICode (lit "    UCASE_NONE," ++ [10]); ICode (lit "    UCASE_UPPER=0x10, // upper case" ++ [10]);
   ICode (lit "    UCASE_TITLE," ++ [10]); ICode (lit "    UCASE_LAST=UCASE_TITLE+5" ++ [10]); ICode (lit "};" ++ [10]); IEndif (lit "#endif" ++ [10])].
Definition header_entries : list entry :=
  [{| e_name := lit "UCASE_NONE"; e_text := None; e_comment := []; e_line := lit "UCASE_NONE," |};
   {| e_name := lit "UCASE_UPPER"; e_text := Some (lit "0x10"); e_comment := lit "upper case"; e_line := lit "UCASE_UPPER=0x10," |};
   {| e_name := lit "UCASE_TITLE"; e_text := None; e_comment := []; e_line := lit "UCASE_TITLE," |};
   {| e_name := lit "UCASE_LAST"; e_text := Some (lit "UCASE_TITLE+5"); e_comment := []; e_line := lit "UCASE_LAST=UCASE_TITLE+5" |}].
Definition header_decls : list decl :=
  [DValue (lit "UCASE_TYPE_MASK") (lit " ") (lit "3") (lit " bits 1..0 "); DValue (lit "UCASE_MORE") (lit " ") (lit "((UCASE_TYPE_MASK<<2)|1)") [];
   DEnum (lit "enum {") [] [] header_entries (lit "};") []].
Definition header_values : list (str * Z) :=
  [(lit "UCASE_TYPE_MASK", 3); (lit "UCASE_MORE", 13); (lit "UCASE_NONE", 0); (lit "UCASE_UPPER", 16); (lit "UCASE_TITLE", 17); (lit "UCASE_LAST", 22)].
Lemma one_digit c : 48 <= c <= 57 -> numeral [c] (c - 48).
Proof. intros H. apply (num_dec [c]). split; [discriminate|]. split; [constructor; [lia|constructor]|]. cbn [hd]. intros ->. reflexivity. Qed.
Ltac solve_var := split; [solve_ident|discriminate].
Ltac solve_line := vm_compute; repeat (constructor; [discriminate|]); constructor.
Lemma header_declares : declares false [lit "UCASECONTEXT_INITIALIZER"] noName header_decls header_values.
Proof.
  apply de_value; [intros [E|[]]; discriminate E|solve_var|solve_line|apply m_num; exact (one_digit 51 ltac:(lia))|].
  apply de_value; [intros [E|[]]; discriminate E|solve_var|solve_line| |].
  - change 13 with (Z.lor (3 * 2 ^ 2) 1). apply (m_par _ _ 0 [] (lit "(UCASE_TYPE_MASK<<2)|1") []); [constructor|constructor|].
    apply (m_op _ _ 0 (lit "(UCASE_TYPE_MASK<<2)") [] (lit "|") [] (lit "1") _ 1 1 Z.lor (fun _ => True)); [constructor|lia|constructor|constructor| |apply m_num; exact (one_digit 49 ltac:(lia))|exact Logic.I].
    apply (m_par _ _ 0 [] (lit "UCASE_TYPE_MASK<<2") []); [constructor|constructor|].
    apply (m_op _ _ 0 (lit "UCASE_TYPE_MASK") [] (lit "<<") [] (lit "2") 3 2 3 (fun x y => x * 2 ^ y) (fun y => 0 <= y)); [constructor|lia|constructor|constructor| |apply m_num; exact (one_digit 50 ltac:(lia))|lia].
    apply m_name; [solve_ident|vm_compute; reflexivity].
  - apply (de_enum false _ _ _ _ [] header_entries _ _ [] [(lit "UCASE_NONE", 0); (lit "UCASE_UPPER", 16); (lit "UCASE_TITLE", 17); (lit "UCASE_LAST", 22)] []); [|apply de_nil].
    apply (en_next noName 0 {| e_name := lit "UCASE_NONE"; e_text := None; e_comment := []; e_line := lit "UCASE_NONE," |}); [solve_var|solve_line|reflexivity|].
    eapply (en_text _ _ {| e_name := lit "UCASE_UPPER"; e_text := Some (lit "0x10"); e_comment := lit "upper case"; e_line := lit "UCASE_UPPER=0x10," |}); [solve_var|solve_line|reflexivity| |].
    + apply m_num. apply (num_hex 120 [49; 48] [1; 0]); [auto|discriminate|]. repeat (constructor; [left; lia|]). constructor.
    + apply (en_next _ 17 {| e_name := lit "UCASE_TITLE"; e_text := None; e_comment := []; e_line := lit "UCASE_TITLE," |}); [solve_var|solve_line|reflexivity|].
      apply (en_text _ _ {| e_name := lit "UCASE_LAST"; e_text := Some (lit "UCASE_TITLE+5"); e_comment := []; e_line := lit "UCASE_LAST=UCASE_TITLE+5" |} [] [] (lit "UCASE_TITLE+5") 22); [solve_var|solve_line|reflexivity| |constructor].
      apply (m_op _ _ 0 (lit "UCASE_TITLE") [] (lit "+") [] (lit "5") 17 5 4 Z.add (fun _ => True)); [constructor|lia|constructor|constructor| |apply m_num; exact (one_digit 53 ltac:(lia))|exact Logic.I].
      apply m_name; [solve_ident|vm_compute; reflexivity].
Qed.
Example C102_case : header_name (lit "UCASE_H") /\ Forall (item_ok (lit "UCASE_H")) header_items /\ linesOf sample_header (flat_map item_lines header_items) /\
  map getTrailingComment (flat_map item_code header_items) = flat_map decl_lines header_decls /\ Forall decl_ok header_decls /\
  declares false [lit "UCASECONTEXT_INITIALIZER"] noName header_decls header_values /\
  exists text, headerText someDay evalText sample_header (lit "ucase_h.py") (lit "ucase.h") (lit "UCASE_H") [] [lit "UCASECONTEXT_INITIALIZER"] text /\
    exists env, importText (fun _ => None) text = Ok env /\ dict_find env (lit "UCASE_LAST") = Some (VInt 22).
Proof.
  split; [reflexivity|]. split.
  { repeat (constructor; [cbn [item_ok lits map]; unfold plain; repeat match goal with |- _ /\ _ => split | |- Forall _ _ => constructor | |- ?a <> [] => (let H := fresh in intros H; vm_compute in H; discriminate H)
    | |- guard_line _ _ => guards | |- ~ guard_line _ _ => guards
    | |- _ -> _ => first [intros _; vm_compute; reflexivity|let H := fresh in intros H; vm_compute in H; discriminate H] | |- _ = _ => vm_compute; reflexivity end|]).
    all: first [apply Forall_nil|vm_compute; reflexivity]. }
  split; [apply C99_lines; vm_compute; reflexivity|]. split; [vm_compute; reflexivity|]. split.
  { constructor; [|constructor; [|constructor; [|constructor]]]; cbn [decl_ok].
    - vm_compute. repeat (split || discriminate).
    - vm_compute. repeat (split || discriminate).
    - split; [left; exists (lit " "), (lit "{"); split; [reflexivity|]; split; [reflexivity|discriminate]|]. split; [constructor|]. split.
      + assert (N : forall s : str, existsb (Z.eqb 125) s = false -> ~ In 125 s).
        { intros s H I. apply Bool.not_true_iff_false in H. apply H. apply existsb_exists. exists 125. split; [exact I|reflexivity]. }
        constructor; [|constructor; [|constructor; [|constructor; [|constructor]]]]; (split; [split; [discriminate|vm_compute; reflexivity]|]); (split; [apply N; vm_compute; reflexivity|]); cbn [e_text e_line e_name].
        * exists (lit ","). repeat split.
        * exists [], [], (lit ","). split; [reflexivity|]. split; [reflexivity|]. split; [reflexivity|]. split; [discriminate|]. split; [reflexivity|]. split; [cbn; intuition discriminate|].
          right. exists []. reflexivity.
        * exists (lit ","). repeat split.
        * exists [], [], []. split; [reflexivity|]. split; [reflexivity|]. split; [reflexivity|]. split; [discriminate|]. split; [reflexivity|]. split; [cbn; intuition discriminate|]. left. reflexivity.
      + exists [], [], [], []. repeat split. }
  split; [exact header_declares|]. eexists. split; [do 2 eexists; split; [apply C99_lines; vm_compute; reflexivity|split; vm_compute; reflexivity]|]. eexists. split; [vm_compute; reflexivity|]. vm_compute. reflexivity.
Qed.
