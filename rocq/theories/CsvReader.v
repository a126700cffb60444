(** * The csv.reader of module_builder/UCDReader.py

    UCDReader.py:155-156 [csv.reader(open(ppucdPath, newline=""), delimiter=";")].  The reader is
    that of CPython's Modules/_csv.c with the default dialect: double quotation mark, doubled
    quotes, no escape character, no initial space skipped, not strict.  The version is that of
    Python 3.9 and 3.10; from 3.11 on NUL is an ordinary character. *)
From Coq Require Import ZArith List Bool Lia ZifyBool.
From Verif Require Import Py Dict Utilities.
Import ListNotations.
Open Scope Z_scope.
Local Notation length := List.length.

(** Iterating over a file opened with newline="" (no translation): a line ends after \n, \r or \r\n.
    [cur] is the line so far. *)
Fixpoint linesFrom (s cur : str) : list str :=
  match s with
  | [] => match cur with [] => [] | _ => [cur] end
  | c :: r =>
      if c =? 10 then (cur ++ [10]) :: linesFrom r []
      else if c =? 13 then
        match r with
        | d :: r' => if d =? 10 then (cur ++ [13; 10]) :: linesFrom r' [] else (cur ++ [13]) :: linesFrom r []
        | [] => [cur ++ [13]]
        end
      else linesFrom r (cur ++ [c])
  end.
Definition fileLines (s : str) : list str := linesFrom s [].

Definition DELIM : Z := 59.
Definition QUOTE : Z := 34.
Definition newline (c : Z) : bool := (c =? 10) || (c =? 13).
(** _csv.c: ParserState, without the states of the escape character *)
Inductive cstate := START_RECORD | START_FIELD | IN_FIELD | IN_QUOTED_FIELD | QUOTE_IN_QUOTED_FIELD | EAT_CRNL.
(** the state of the reader: the state, the fields of the record, the field so far *)
Record reader := mkReader { r_state : cstate; r_fields : list str; r_field : str }.
Definition reset : reader := mkReader START_RECORD [] [].
(** _csv.c: parse_save_field *)
Definition saveField (R : reader) (st : cstate) : reader := mkReader st (r_fields R ++ [r_field R]) [].
(** _csv.c: parse_add_char *)
Definition addChar (R : reader) (c : Z) (st : cstate) : reader := mkReader st (r_fields R) (r_field R ++ [c]).
Definition inState (R : reader) (st : cstate) : reader := mkReader st (r_fields R) (r_field R).
(** _csv.c: parse_process_char for [START_FIELD] *)
Definition startField (R : reader) (c : Z) : reader :=
  if newline c then saveField R EAT_CRNL
  else if c =? QUOTE then inState R IN_QUOTED_FIELD
  else if c =? DELIM then saveField R START_FIELD
  else addChar R c IN_FIELD.
(** _csv.c: parse_process_char for a character of the line *)
Definition processChar (R : reader) (c : Z) : res reader :=
  match r_state R with
  | START_RECORD => if newline c then Ok (inState R EAT_CRNL) else Ok (startField R c)
  | START_FIELD => Ok (startField R c)
  | IN_FIELD =>
      if newline c then Ok (saveField R EAT_CRNL)
      else if c =? DELIM then Ok (saveField R START_FIELD)
      else Ok (addChar R c IN_FIELD)
  | IN_QUOTED_FIELD => if c =? QUOTE then Ok (inState R QUOTE_IN_QUOTED_FIELD) else Ok (addChar R c IN_QUOTED_FIELD)
  | QUOTE_IN_QUOTED_FIELD =>
      if c =? QUOTE then Ok (addChar R c IN_QUOTED_FIELD)
      else if c =? DELIM then Ok (saveField R START_FIELD)
      else if newline c then Ok (saveField R EAT_CRNL)
      else Ok (addChar R c IN_FIELD)
  | EAT_CRNL => if newline c then Ok R else Err CsvError
  end.
(** _csv.c: parse_process_char for the end of the line *)
Definition processEol (R : reader) : reader :=
  match r_state R with
  | START_RECORD => R
  | START_FIELD | IN_FIELD | QUOTE_IN_QUOTED_FIELD => saveField R START_RECORD
  | IN_QUOTED_FIELD => R
  | EAT_CRNL => inState R START_RECORD
  end.
(** _csv.c: Reader_iternext, the loop over a line; "line contains NUL" *)
Fixpoint processChars (R : reader) (line : str) : res reader :=
  match line with
  | [] => Ok R
  | c :: r => if c =? 0 then Err CsvError else let* R' := processChar R c in processChars R' r
  end.
Definition processLine (R : reader) (line : str) : res reader := let* R' := processChars R line in Ok (processEol R').
(** _csv.c: Reader_iternext over all lines: the rows *)
Fixpoint rowsFrom (lines : list str) (R : reader) : res (list (list str)) :=
  match lines with
  | [] =>
      if match r_field R with [] => match r_state R with IN_QUOTED_FIELD => true | _ => false end | _ => true end
      then Ok [r_fields (saveField R START_RECORD)] else Ok []
  | line :: rest =>
      let* R' := processLine R line in
      match r_state R' with
      | START_RECORD => let* rows := rowsFrom rest reset in Ok (r_fields R' :: rows)
      | _ => rowsFrom rest R'
      end
  end.
(** _csv.c: field_limit.  parse_add_char raises an error for a character past the limit.  The
    model checks the fields of the rows instead: a character of the field always ends up in a row
    unless another error, of the same class, is raised. *)
Definition FIELD_LIMIT : Z := 131072.
Definition short (rows : list (list str)) : bool := forallb (forallb (fun f => Z.of_nat (length f) <=? FIELD_LIMIT)) rows.
(** [list(csv.reader(open(path, newline=""), delimiter=";"))] for the text of the file *)
Definition csvRows (text : str) : res (list (list str)) :=
  let* rows := rowsFrom (fileLines text) reset in if short rows then Ok rows else Err CsvError.
