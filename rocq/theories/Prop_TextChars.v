(** * Property C92: the characters of Python's string functions *)
From Coq Require Import ZArith List Bool Lia String.
From Verif Require Import Py Dict CharNames PyText CharProps CharRuns BidiProps BidiShipped CaseProps CaseShipped TextChars.
Import ListNotations.
Open Scope Z_scope.

(** ** C92

    Python defines white space ([str.isspace], [\s], [strip]) as the characters of category
    Zs and those of bidi class B, S or WS.  The white space of the model is that of the
    shipped tables: 12 is Zs, 7, 8 and 9 are B, S and WS (uchar_h.py). *)
Theorem C92_space : forall c, 0 <= c <= 0x10FFFF ->
  (uSpace c = true <-> getGeneralCategory icu c = Ok 12 \/ exists d, getCharDirection icu_bidi c = Ok d /\ In d [7; 8; 9]).
Proof. exact space_shipped. Qed.
Print Assumptions C92_space.
(** In ASCII, [\w] is letters, digits and "_", and upper() and lower() are the simple
    mappings of the shipped tables. *)
Theorem C92_ascii : forall c, 0 <= c < 128 ->
  (exists b, isalnum icu c = Ok b /\ wordChar c = b || (c =? 95)) /\
  upper [c] = [match toUpper icu_case c with Ok u => u | Err _ => -1 end] /\
  lower [c] = [match toLower icu_case c with Ok l => l | Err _ => -1 end].
Proof. intros c Hc. destruct (ascii_text c Hc) as (W & U & L). split; [exact W|]. rewrite U, L. split; reflexivity. Qed.
Print Assumptions C92_ascii.
Example C92_case : uSpace 0x2003 = true /\ uSpace 0x200B = false /\ upper (lit "a_b1") = lit "A_B1" /\ trim ([32; 0x3000] ++ lit "x" ++ [10]) = lit "x".
Proof. repeat split; vm_compute; reflexivity. Qed.
