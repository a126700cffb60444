(** * eval(text, names) *)
From Coq Require Import ZArith List Bool Lia String.
From Verif Require Import Py Dict CharNames PyText PyModule PyParse.
Import ListNotations.
Open Scope Z_scope.
Local Notation length := List.length.

(** HeaderToPtyhon.py:147 [eval(value, variables)] for the expressions of PyParse.v, where
    [variables] has integers; the result is used as an integer (line 157: [intValue + 1]).
    Python adds __builtins__ to [variables]; the names of built-in functions are not
    modelled, a text that uses one gives NameError here. *)
Definition evalText (s : str) (variables : dict Z) : res Z :=
  match lexF (length s) 0 false s with
  | Some ts =>
      match pExpr (4 * length ts + 8) 0 ts with
      | Some (e, []) =>
          let* v := eval (map (fun '(n, z) => (n, VInt z)) variables) e in
          match v with VInt z => Ok z | _ => Err TypeError end
      | _ => Err SyntaxError
      end
  | None => Err SyntaxError
  end.
