(** * Property C90: the text of a UnicodeSet *)
From Coq Require Import ZArith List Bool Lia String.
From Verif Require Import Py CharNames UnicodeSet UnicodeSetReach UnicodeSetText.
Import ListNotations.
Open Scope Z_scope.

(** ** C90

    [read_list] reads a Python list display of hexadecimal numbers (UnicodeSetText.v).
    The text of a set made through the API evaluates to its list of range limits, so two
    sets have the same text exactly if they are equal by [==]. *)
Theorem C90_text : forall A, built A -> read_list (str_set A) = Some A.
Proof. exact (fun A H => read_str A (built_nonneg A H)). Qed.
Print Assumptions C90_text.
Theorem C90_equal : forall A B, built A -> built B -> (str_set A = str_set B <-> UnicodeSet.eq A B = true).
Proof. exact str_eq. Qed.
Print Assumptions C90_equal.
Example C90_case : built (new_range 65 91) /\ str_set (new_range 65 91) = lit "[0x0041, 0x005B, 0x110000]" /\
  read_list (lit "[0x0041, 0x005B, 0x110000]") = Some [65; 91; 0x110000].
Proof. split; [apply b_range; lia|]. split; vm_compute; reflexivity. Qed.
