(** * Properties C82-C84: HeaderToPtyhon *)
From Coq Require Import ZArith List Bool Lia String.
From Verif Require Import Py Dict CharNames PyText HeaderFile HeaderFacts HeaderDecls TextFacts.
Import ListNotations.
Open Scope string_scope.
Open Scope list_scope.
Open Scope Z_scope.
Local Notation length := List.length.
Local Notation concat := List.concat.

Definition lits (l : list string) : list str := map (fun s => lit s ++ [10]) l.
Definition guardName : str := lit "UCASE_H".

(** ** C82: the lines that are read *)
(** [delivered lines l]: calling nextLine until it returns None gives l.  For a header that
    consists of blank lines, comments, conditionals, code and definitions with continuation
    lines, these are the lines of the code and of the definitions, in order, each split into
    text and comment; nothing inside comments or conditionals is read.  Missing: nested
    conditionals, code after a comment on the same line, comments closed by a line that
    starts with another comment -- see the refutations. *)
Theorem C82_lines_partial : forall guard items, header_name guard -> Forall (item_ok guard) items ->
  delivered guard (flat_map item_lines items) (map getTrailingComment (flat_map item_code items)).
Proof. intros guard items G. exact (lines_of_items guard G items). Qed.
Print Assumptions C82_lines_partial.
(** Calling nextLine again and again ends, whatever the lines, with one list of lines,
    and each has a first token. *)
Theorem C82_reading : forall guard lines, exists l, delivered guard lines l /\ (forall l', delivered guard lines l' -> l' = l) /\
  Forall (fun x => exists t, firstToken (fst x) = Ok t) l.
Proof.
  intros guard lines. destruct (delivered_exists guard lines) as [l D]. exists l. split; [exact D|]. split.
  - intros l' D'. exact (delivered_fun _ _ _ _ D' D).
  - eapply Forall_impl; [|exact (delivered_solid _ _ _ D)]. intros x S. apply firstToken_solid. exact S.
Qed.
Print Assumptions C82_reading.
(** The comment at the end of a line: none, "/* .. */", "/** .. */" or "// ..". *)
Theorem C82_comment_partial : forall code sp, trim code = code -> ~ In 47 code -> spaces sp ->
  getTrailingComment code = (code, []) /\
  (forall star c0 c rest, c0 <> 42 -> unclosed c -> star = [] \/ star = lit "*" ->
     getTrailingComment (code ++ sp ++ lit "/*" ++ star ++ c0 :: c ++ lit "*/" ++ rest) = (code, c0 :: c)) /\
  (forall sp2 c, spaces sp2 -> c <> [] -> stops uSpace c -> ~ In 42 c -> ~ In 36 c ->
     getTrailingComment (code ++ sp ++ lit "//" ++ sp2 ++ c) = (code, c)).
Proof.
  intros code sp T N S. split; [exact (no_comment code N)|]. split.
  - intros star c0 c rest C U ST. exact (trailing_comment code sp star c0 c rest T N S C U ST).
  - intros sp2 c S2 C0 C N42 N36. exact (line_comment code sp sp2 c T N S S2 C0 C N42 N36).
Qed.
Print Assumptions C82_comment_partial.

Definition sample_items : list item :=
  [IComments (lit "/*" ++ [10]) (lits [" * Copyright"; "#define NOT_READ 1"]) (lit " */" ++ [10]);
   IGuard (lit "#ifndef __UCASE_H__" ++ [10]); IBlank [10];
   ICode (lit "#define UCASE_TYPE_MASK 3 /* bits 1..0 */" ++ [10]);
   ICond (lit "#if 0" ++ [10]) (lits ["#define NOT_READ 2"]) (lit "#endif" ++ [10]);
   ISlash (lit "// enumerators" ++ [10]);
   ICode (lit "enum {" ++ [10]); ICode (lit "    UCASE_NONE," ++ [10]); ICode (lit "    UCASE_UPPER=0x10, // upper case" ++ [10]);
   ICode (lit "    UCASE_TITLE" ++ [10]); ICode (lit "};" ++ [10]);
   IMacro (lit "#define U_GET(a) \" ++ [10]) (lits ["   (a) + \"]) (lit "   1" ++ [10]);
   IEndif (lit "#endif" ++ [10])].
Definition sample_entries : list entry :=
  [{| e_name := lit "UCASE_NONE"; e_text := None; e_comment := []; e_line := lit "UCASE_NONE," |};
   {| e_name := lit "UCASE_UPPER"; e_text := Some (lit "0x10"); e_comment := lit "upper case"; e_line := lit "UCASE_UPPER=0x10," |};
   {| e_name := lit "UCASE_TITLE"; e_text := None; e_comment := []; e_line := lit "UCASE_TITLE" |}].
Definition sample_decls : list decl :=
  [DValue (lit "UCASE_TYPE_MASK") (lit " ") (lit "3") (lit " bits 1..0 ");
   DEnum (lit "enum {") [] [] sample_entries (lit "};") [];
   DCall (lit "U_GET") (lit "a) (a) +1") []].
Ltac guards := rewrite <- guardSearch_iff by reflexivity; vm_compute; first [reflexivity|discriminate].
Lemma sample_items_ok : Forall (item_ok guardName) sample_items.
Proof.
  repeat (constructor; [cbn [item_ok lits map]; unfold plain; repeat match goal with |- _ /\ _ => split | |- Forall _ _ => constructor | |- ?a <> [] => (let H := fresh in intros H; vm_compute in H; discriminate H)
    | |- guard_line _ _ => guards | |- ~ guard_line _ _ => guards
    | |- _ -> _ => first [intros _; vm_compute; reflexivity|let H := fresh in intros H; vm_compute in H; discriminate H] | |- _ = _ => vm_compute; reflexivity end|]). constructor.
Qed.
Lemma sample_lines : map getTrailingComment (flat_map item_code sample_items) = flat_map decl_lines sample_decls.
Proof. vm_compute. reflexivity. Qed.
Example C82_case : delivered guardName (flat_map item_lines sample_items) (flat_map decl_lines sample_decls) /\
  length (flat_map decl_lines sample_decls) = 7%nat.
Proof. split; [|reflexivity]. rewrite <- sample_lines. apply C82_lines_partial; [reflexivity|]. exact sample_items_ok. Qed.

(** Conditionals do not nest: what follows the inner #endif is read, although the compiler
    would not see it. *)
Theorem C82_nested_refuted : exists guard, delivered guard (lits ["#if 0"; "#if 1"; "#define A 1"; "#endif"; "#define B 2"; "#endif"; "#define C 3"])
  [(lit "#define B 2", []); (lit "#define C 3", [])].
Proof.
  exists guardName. eapply d_next; [vm_compute; reflexivity|]. eapply d_next; [vm_compute; reflexivity|]. eapply d_end. vm_compute. reflexivity.
Qed.
Print Assumptions C82_nested_refuted.
(** Code after a comment is lost, and with it all the code up to the next end of a comment. *)
Theorem C82_swallow_refuted : exists guard, delivered guard (lits ["/* first */ #define A 1"; "#define B 2"; "#define C 3 /* three */"; "#define D 4"])
  [(lit "#define D 4", [])].
Proof. exists guardName. eapply d_next; [vm_compute; reflexivity|]. eapply d_end. vm_compute. reflexivity. Qed.
Print Assumptions C82_swallow_refuted.
(** A line comment as the last line of a comment does not close it. *)
Theorem C82_close_refuted : exists guard, delivered guard (lits ["/* first"; "// second */"; "#define A 1"; "*/"; "#define B 2"]) [(lit "#define B 2", [])].
Proof. exists guardName. eapply d_next; [vm_compute; reflexivity|]. eapply d_end. vm_compute. reflexivity. Qed.
Print Assumptions C82_close_refuted.
(** "//" inside a string is taken for a comment; a comment inside a line comment leaves the
    front of that comment with the code. *)
Theorem C82_comment_refuted :
  getTrailingComment (lit "#define SITE " ++ [34] ++ lit "http://icu" ++ [34]) = (lit "#define SITE " ++ [34] ++ lit "http:", lit "icu" ++ [34]) /\
  getTrailingComment (lit "#define A 1 // see /* x */") = (lit "#define A 1 // see", lit " x ").
Proof. split; vm_compute; reflexivity. Qed.
Print Assumptions C82_comment_refuted.
(** A line comment with "$" in it is not recognised: it becomes part of the value. *)
Theorem C82_dollar_refuted : translate guardName evalName [] (lits ["#define A 1 // $2"]) = Ok [lit "A = 1 // $2"].
Proof. vm_compute. reflexivity. Qed.
Print Assumptions C82_dollar_refuted.

(** ** C83: the module has the values of the header *)
(** For any header whose code is a sequence of declarations with one enumerator to a line:
    the module has, in order, name = value for each macro with a value that is not ignored,
    and name = text or number for each enumerator, the number being the one C gives.
    [value] is Python's eval. Missing: several enumerators on a line, "{" with an enumerator
    after it, enumerations on one line, more than one space after #define -- see the
    refutations. *)
Theorem C83_translate_partial : forall guard value ignore items ds outs,
  (forall n names, value (dec n) names = Ok n) -> header_name guard ->
  Forall (item_ok guard) items -> map getTrailingComment (flat_map item_code items) = flat_map decl_lines ds ->
  Forall decl_ok ds -> Forall2 (decl_out value ignore) ds outs ->
  translate guard value ignore (flat_map item_lines items) = Ok (concat outs).
Proof.
  intros guard value ignore items ds outs V G I E D O. apply translate_decls with (ds := ds); [exact V| |exact D|exact O].
  rewrite <- E. exact (lines_of_items guard G items I).
Qed.
Print Assumptions C83_translate_partial.
(** The number written for an enumerator without text is its value, and for numerals and
    names an evaluation with the property assumed above exists. *)
Theorem C83_numerals : forall n names, evalName (dec n) names = Ok n.
Proof. exact evalName_dec. Qed.
Print Assumptions C83_numerals.
Lemma sample_ok : Forall decl_ok sample_decls.
Proof.
  constructor; [|constructor; [|constructor; [|constructor]]]; cbn [decl_ok].
  - vm_compute. repeat (split || discriminate).
  - split; [left; exists (lit " "), (lit "{"); split; [reflexivity|]; split; [reflexivity|discriminate]|]. split; [constructor|]. split.
    + assert (N : forall s : str, existsb (Z.eqb 125) s = false -> ~ In 125 s).
      { intros s H I. apply Bool.not_true_iff_false in H. apply H. apply existsb_exists. exists 125. split; [exact I|reflexivity]. }
      constructor; [|constructor; [|constructor; [|constructor]]]; (split; [split; [discriminate|vm_compute; reflexivity]|]); (split; [apply N; vm_compute; reflexivity|]); cbn [e_text e_line e_name].
      * exists (lit ","). repeat split.
      * exists [], [], (lit ","). split; [reflexivity|]. split; [reflexivity|]. split; [reflexivity|]. split; [discriminate|]. split; [reflexivity|]. split; [cbn; intuition discriminate|].
        right. exists []. reflexivity.
      * exists []. repeat split.
    + exists [], [], [], []. repeat split.
  - split; [discriminate|vm_compute; reflexivity].
Qed.
Example C83_case : translate guardName evalName [lit "OTHER"] (flat_map item_lines sample_items) =
  Ok [lit "UCASE_TYPE_MASK = 3  #  bits 1..0 "; lit "UCASE_NONE = 0"; lit "UCASE_UPPER = 0x10  # upper case"; lit "UCASE_TITLE = 17"].
Proof.
  rewrite (C83_translate_partial guardName evalName [lit "OTHER"] sample_items sample_decls
    [[lit "UCASE_TYPE_MASK = 3  #  bits 1..0 "]; [lit "UCASE_NONE = 0"; lit "UCASE_UPPER = 0x10  # upper case"; lit "UCASE_TITLE = 17"]; []]
    C83_numerals eq_refl sample_items_ok sample_lines sample_ok); [reflexivity|].
  constructor; [right; split; [cbn; intuition discriminate|reflexivity]|]. constructor.
  - exists [0; 16; 17]. split; [|vm_compute; reflexivity]. apply num_next; [reflexivity|]. eapply num_text; [reflexivity|vm_compute; reflexivity|]. apply num_next; [reflexivity|]. apply num_nil.
  - constructor; [reflexivity|constructor].
Qed.

(** Of several enumerators on one line only the first is there, and the numbers after are
    wrong; an enumerator behind the brace is lost; after an enumeration on a single line
    the lines that follow are taken for enumerators. *)
Theorem C83_values_refuted :
  translate guardName evalName [] (lits ["enum {"; "A, B,"; "C"; "};"]) = Ok [lit "A = 0"; lit "C = 1"] /\
  translate guardName evalName [] (lits ["enum E"; "{ A,"; "B"; "};"]) = Ok [lit "B = 0"] /\
  translate guardName evalName [] (lits ["enum { A };"; "#define B 5"; "int f();"]) = Ok [lit "define = 0"; lit "int = 1"].
Proof. repeat match goal with |- _ /\ _ => split end; vm_compute; reflexivity. Qed.
Print Assumptions C83_values_refuted.

(** ** C84: the translation does not fail *)
(** Whatever the lines, the translation ends: with a module, with the error of an evaluation,
    or with IndexError for a #define or an enumerator line without a name. *)
Theorem C84_errors_partial : forall guard value ignore lines e, translate guard value ignore lines = Err e ->
  e = IndexError \/ exists text names, value text names = Err e.
Proof.
  intros guard value ignore lines e. destruct (delivered_exists guard lines) as [l D]. rewrite (translate_delivered _ _ _ _ _ D).
  assert (G : forall l st, gen value ignore l st = Err e -> e = IndexError \/ exists text names, value text names = Err e).
  { clear. induction l as [|[line c] l IH]; intros st; [discriminate|]. cbn [gen]. destruct st as [[n names]|].
    - destruct (starts (lit "{") line); [apply IH|]. destruct (endOfEnum line); [apply IH|].
      destruct (enumEntry line) as [[name text]|]; [|intros [= <-]; left; reflexivity]. cbv zeta.
      destruct (value _ names) as [z|e'] eqn:V; cbn [bind]; [|intros [= <-]; right; eauto].
      destruct (gen value ignore l _) as [o|e'] eqn:Q; cbn [bind]; [discriminate|]. intros [= <-]. exact (IH _ Q).
    - destruct (firstToken line) as [t|e'] eqn:T; cbn [bind].
      + destruct (str_eqb t (lit "#define")); [|apply IH]. unfold defineOut. destruct (defineSearch line) as [[name text]|]; cbn [bind]; [|intros [= <-]; left; reflexivity].
        destruct (gen value ignore l None) as [o|e'] eqn:Q; cbn [bind]; [discriminate|]. intros [= <-]. exact (IH _ Q).
      + intros [= <-]. left. unfold firstToken in T. destruct (fst _) in T; inversion T. reflexivity. }
  apply G.
Qed.
Print Assumptions C84_errors_partial.
Theorem C84_errors_refuted : translate guardName evalName [] (lits ["#define  A 1"]) = Err IndexError /\
  translate guardName evalName [] (lits ["enum {"; "A"; "}"; ";"]) = Err IndexError.
Proof. split; vm_compute; reflexivity. Qed.
Print Assumptions C84_errors_refuted.
Example C84_case : translate guardName evalName [] (lits ["#define A 1"; "enum { "; "B=A+1"; "};"]) = Err NameError.
Proof. vm_compute. reflexivity. Qed.
