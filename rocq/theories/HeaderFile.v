(** * module_builder/HeaderToPtyhon.py: ICU headers as Python modules *)
From Coq Require Import ZArith List Bool Lia String.
From Verif Require Import Py Dict PyStr CharNames PyText.
Import ListNotations.
Open Scope Z_scope.
Local Notation length := List.length.

(** ** The regular expressions, HeaderToPtyhon.py:16-22

    The lines they see have no newline: [nextLine] strips it. *)

(** [(.+?)\*/] at the front: the shortest text of one or more characters before "*/" *)
Definition shortGroup (s : str) : option str :=
  match s with
  | [] => None
  | c :: r => match cut (lit "*/") r with Some (a, _) => Some (c :: a) | None => None end
  end.
(** [cCommentRE] at the front: after "/*" one more star is taken if it leaves a match *)
Definition cMatch (s : str) : option str :=
  if starts (lit "/*") s then
    let r := skipn 2 s in
    match (if starts (lit "*") r then shortGroup (skipn 1 r) else None) with
    | Some g => Some g
    | None => shortGroup r
    end
  else None.
(** [eolCommentRE] at the front: "//", spaces, then text without "$" to the end *)
Definition eolMatch (s : str) : option str :=
  if starts (lit "//") s then
    let r := skipn 2 s in
    match lstrip r with
    | [] => match rev r with [] => None | c :: _ => Some [c] end
    | g => if existsb (Z.eqb 36) g then None else Some g
    end
  else None.
(** [search]: the text before the first match, and its group *)
Fixpoint search (m : str -> option str) (s : str) : option (str * str) :=
  match m s with
  | Some g => Some ([], g)
  | None => match s with
            | [] => None
            | c :: r => match search m r with Some (a, g) => Some (c :: a, g) | None => None end
            end
  end.
(** [\(\w+(?:,\s*\w+)?\)] at the front: its text and the rest *)
Definition args (s : str) : option (str * str) :=
  if starts (lit "(") s then
    let '(a, r) := span wordChar (skipn 1 s) in
    match a with
    | [] => None
    | _ =>
        if starts (lit ")") r then Some (lit "(" ++ a ++ lit ")", skipn 1 r)
        else if starts (lit ",") r then
          let '(sp, r1) := span uSpace (skipn 1 r) in
          let '(b, r2) := span wordChar r1 in
          match b with
          | [] => None
          | _ => if starts (lit ")") r2 then Some (lit "(" ++ a ++ lit "," ++ sp ++ b ++ lit ")", skipn 1 r2) else None
          end
        else None
    end
  else None.
(** [macroDefineRE] at the front: the name with its arguments, and the value *)
Definition defineMatch (s : str) : option (str * str) :=
  if starts (lit "#define ") s then
    let '(a, r) := span wordChar (skipn 8 s) in
    match a with
    | [] => None
    | _ =>
        let '(name, r1) := match args r with Some (g, r1) => (a ++ g, r1) | None => (a, r) end in
        let '(sp, v) := span uSpace r1 in
        match v with
        | [] => match rev sp with c :: _ :: _ => Some (name, [c]) | _ => Some (name, []) end
        | _ => match sp with [] => Some (name, []) | _ => Some (name, v) end
        end
    end
  else None.
Fixpoint defineSearch (s : str) : option (str * str) :=
  match defineMatch s with
  | Some x => Some x
  | None => match s with [] => None | _ :: r => defineSearch r end
  end.
(** [typedefEnumRE.fullmatch] *)
Definition typedefEnum (s : str) : bool :=
  if starts (lit "typedef") s then
    let '(sp, r) := span uSpace (skipn 7 s) in
    match sp with
    | [] => false
    | _ =>
        if starts (lit "enum") r then
          let '(_, r2) := span uSpace (skipn 4 r) in
          let '(_, r3) := span wordChar r2 in
          let '(_, r4) := span uSpace r3 in
          match r4 with [] => true | [c] => c =? 123 | _ => false end
        else false
    end
  else false.
(** [endOfEnumRE] at the front, and [search] *)
Definition endMatch (s : str) : bool :=
  if starts (lit "}") s then
    let '(_, r1) := span uSpace (skipn 1 s) in
    let '(_, r2) := span wordChar r1 in
    let '(_, r3) := span uSpace r2 in starts (lit ";") r3
  else false.
Fixpoint endOfEnum (s : str) : bool :=
  if endMatch s then true else match s with [] => false | _ :: r => endOfEnum r end.
(** the first match of [enumEntryRE]: the first word and the value after "=" *)
Definition enumEntry (s : str) : option (str * str) :=
  let '(_, r) := span (fun c => negb (wordChar c)) s in
  let '(name, r1) := span wordChar r in
  match name with
  | [] => None
  | _ =>
      let '(_, r2) := span uSpace r1 in
      if starts (lit "=") r2 then
        let '(sp, r3) := span uSpace (skipn 1 r2) in
        let '(v, _) := span (fun c => negb (c =? 44)) r3 in
        match v with
        | [] => match rev sp with c :: _ => Some (name, [c]) | [] => Some (name, []) end
        | _ => Some (name, v)
        end
      else Some (name, [])
  end.

(** HeaderToPtyhon.py:51-53 *)
Definition firstToken (line : str) : res str :=
  match fst (span (fun c => negb (uSpace c)) (lstrip line)) with [] => Err IndexError | t => Ok t end.
(** HeaderToPtyhon.py:55-62 *)
Definition getTrailingComment (line : str) : str * str :=
  match search cMatch line with
  | Some (before, g) => (trim before, g)
  | None => match search eolMatch line with
            | Some (before, g) => (trim before, g)
            | None => (line, [])
            end
  end.
(** HeaderToPtyhon.py:49, [guardMatch.search]; [name] is headerName.upper(), read literally *)
Definition guardAt (name s : str) : bool :=
  if starts (lit "#ifndef") s then
    let '(sp, r) := span uSpace (skipn 7 s) in
    let tail := fun t => match lstrip t with [] => true | _ => match lstrip (skipn 2 t) with [] => starts (lit "__") t | _ => false end end in
    let body := fun t => if starts name t then tail (skipn (length name) t) else false in
    match sp with
    | [] => false
    | _ => if starts (lit "__") r then if body (skipn 2 r) then true else body r else body r
    end
  else false.
Fixpoint guardSearch (name s : str) : bool :=
  if guardAt name s then true else match s with [] => false | _ :: r => guardSearch name r end.

Section Header.
  (** headerName.upper() *)
  Variable guard : str.

  (** HeaderToPtyhon.py:64-110.  The file is the list of the lines not yet read; the line
      and comment, or [None] at the end, and the lines after. *)
  Fixpoint nextLoop (lines : list str) (inComment inConditional inMacro : bool) (macroLine : str) : option (str * str) * list str :=
    match lines with
    | [] => (None, [])
    | [] :: _ => (None, lines)
    | raw :: rest =>
        let line := trim raw in
        match line with
        | [] => nextLoop rest inComment inConditional inMacro macroLine
        | _ =>
            if starts (lit "//") line then nextLoop rest inComment inConditional inMacro macroLine
            else if starts (lit "/*") line then
              if ends (lit "*/") line then nextLoop rest inComment inConditional inMacro macroLine
              else nextLoop rest true inConditional inMacro macroLine
            else if inComment then nextLoop rest (negb (ends (lit "*/") line)) inConditional inMacro macroLine
            else if starts (lit "#if") line then
              nextLoop rest inComment (if guardSearch guard line then inConditional else true) inMacro macroLine
            else if inConditional then nextLoop rest inComment (negb (starts (lit "#endif") line)) inMacro macroLine
            else if starts (lit "#endif") line then nextLoop rest inComment inConditional inMacro macroLine
            else if starts (lit "#define") line && ends [92] line then nextLoop rest inComment inConditional true (removelast line)
            else if inMacro then
              if ends [92] line then nextLoop rest inComment inConditional inMacro (macroLine ++ trim (removelast line))
              else (Some (getTrailingComment (macroLine ++ line)), rest)
            else (Some (getTrailingComment line), rest)
        end
    end.
  Definition nextLine (lines : list str) : option (str * str) * list str := nextLoop lines false false false [].

  (** [eval(value, variables)], which must give an integer *)
  Variable pyeval : str -> dict Z -> res Z.
  (** the names not to translate *)
  Variable ignore : list str.

  (** [f"{name} = {value}  # {comment}"] or without the comment *)
  Definition outputLine (name value comment : str) : str :=
    name ++ lit " = " ++ value ++ (match comment with [] => [] | _ => lit "  # " ++ comment end).

  (** HeaderToPtyhon.py:129-152; fuel for the lines *)
  Fixpoint enumLoop (fuel : nat) (lines : list str) (nextValue : Z) (variables : dict Z) (out : list str) : res (list str * list str) :=
    match fuel with
    | O => Err OutOfFuel
    | S m =>
        match nextLine lines with
        | (None, rest) => Ok (rest, out)
        | (Some (eline, comment), rest) =>
            if starts (lit "{") eline then enumLoop m rest nextValue variables out
            else if endOfEnum eline then Ok (rest, out)
            else match enumEntry eline with
                 | None => Err IndexError
                 | Some (name, value) =>
                     let value := match value with [] => dec nextValue | _ => value end in
                     let* intValue := pyeval value variables in
                     enumLoop m rest (intValue + 1) (dict_set variables name intValue) (out ++ [outputLine name value comment])
                 end
        end
    end.

  (** HeaderToPtyhon.py:112-152: the lines added to [outputLines] *)
  Fixpoint translateLoop (fuel : nat) (lines : list str) (out : list str) : res (list str) :=
    match fuel with
    | O => Err OutOfFuel
    | S m =>
        match nextLine lines with
        | (None, _) => Ok out
        | (Some (line, comment), rest) =>
            let* token := firstToken line in
            if str_eqb token (lit "#define") then
              match defineSearch line with
              | None => Err IndexError
              | Some (name, value) =>
                  if existsb (str_eqb name) ignore then translateLoop m rest out
                  else match value with
                       | [] => translateLoop m rest out
                       | _ => if existsb (Z.eqb 40) name then translateLoop m rest out
                              else translateLoop m rest (out ++ [outputLine name value comment])
                       end
              end
            else if str_eqb token (lit "enum") || (str_eqb token (lit "typedef") && typedefEnum line) then
              let* (rest, out) := enumLoop m rest 0 [] out in translateLoop m rest out
            else translateLoop m rest out
        end
    end.
  Definition translate (lines : list str) : res (list str) := translateLoop (S (length lines)) lines [].
End Header.

(** Python's [eval] for decimal and hexadecimal numerals and names, for the examples *)
Definition evalName (value : str) (variables : dict Z) : res Z :=
  let t := trim value in
  match py_int t (if starts (lit "0x") t then 16 else 10) with
  | Ok n => Ok n
  | Err _ => match dict_find variables t with Some n => Ok n | None => Err NameError end
  end.
