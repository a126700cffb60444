(** * Model of tests/UnicodeCharacterData.py: the UCD file indexed by property

    Not modelled: the download, the XML parser and the time that is printed; the
    file is its list of groups, each with the character elements in it. *)
From Coq Require Import ZArith List Bool Lia String.
From Verif Require Import Py PyStr Dict UnicodeSet CharProps CharNames UCD.
Import ListNotations.
Open Scope Z_scope.

(** UnicodeCharacterData.py:30-38 *)
Definition codePointsInSet (l : uset) : res (list Z) :=
  let len2 := Z.land (zlen l) (Z.lnot 1) in
  let* chunks := mapM (fun i => let* start := py_get l i in let* stop := py_get l (i + 1) in Ok (UnicodeSet.py_range start stop 1)) (UnicodeSet.py_range 0 len2 2) in
  Ok (List.concat chunks).

(** UnicodeCharacterData.py:41-49: a missing set is made when it is asked for *)
Definition propertyList := dict uset.
Definition pl_get (d : propertyList) (key : str) : propertyList * uset :=
  match dict_find d key with Some s => (d, s) | None => (dict_set d key new_empty, new_empty) end.
(** UnicodeCharacterData.py:51-52.  The set is changed in place; no two keys have the same set. *)
Definition addCodePointForKey (d : propertyList) (key : str) (codePoint : Z) : res propertyList :=
  let (d, s) := pl_get d key in
  let* s' := add s codePoint in
  Ok (dict_set d key s').

(** a dictionary with integer keys *)
Section ZDict.
  Context {V : Type}.
  Fixpoint zd_find (d : list (Z * V)) (k : Z) : option V :=
    match d with [] => None | (j, v) :: r => if j =? k then Some v else zd_find r k end.
  Fixpoint zd_set (d : list (Z * V)) (k : Z) (v : V) : list (Z * V) :=
    match d with [] => [(k, v)] | (j, w) :: r => if j =? k then (j, v) :: r else (j, w) :: zd_set r k v end.
End ZDict.

Definition characters := list (Z * characterData).
(** UnicodeCharacterData.py:91-97 *)
Fixpoint populateGroup (d : characters) (group : element) (chars : list element) : res characters :=
  match chars with
  | [] => Ok d
  | char :: rest =>
      match dict_find char (lit "cp") with
      | None => populateGroup d group rest
      | Some _ => let* data := newCharacterData char group in populateGroup (zd_set d (codePoint data) data) group rest
      end
  end.
(** UnicodeCharacterData.py:90-97 *)
Fixpoint populateGroups (d : characters) (groups : list (element * list element)) : res characters :=
  match groups with
  | [] => Ok d
  | (group, chars) :: rest => let* d := populateGroup d group chars in populateGroups d rest
  end.
(** UnicodeCharacterData.py:67-70 *)
Definition populateCharacterData (d : characters) (groups : list (element * list element)) : res characters :=
  if zlen d >? 0 then Ok d else populateGroups d groups.

(** UnicodeCharacterData.py:106-113 *)
Record index := mkIndex { scriptList : propertyList; generalCategories : propertyList; bidiClasses : propertyList;
  bidiPairedBracketTypes : propertyList; numericTypes : propertyList; blockList : propertyList; decompositions : list (Z * str) }.
Definition emptyIndex : index := mkIndex [] [] [] [] [] [] [].

(** UnicodeCharacterData.py:121-144 *)
Definition readOne (x : index) (data : characterData) : res index :=
  let c := codePoint data in
  let* gc := addCodePointForKey (generalCategories x) (generalCategory data) c in
  let* bc := addCodePointForKey (bidiClasses x) (bidiClass (bidi data)) c in
  let* bpt := addCodePointForKey (bidiPairedBracketTypes x) (bidiPairedBracketType (bidi data)) c in
  let dm := match decomposition (decomp data) with Some s => zd_set (decompositions x) c s | None => decompositions x end in
  let* nt := (if str_eqb (numericType data) (lit "None") then Ok (numericTypes x) else addCodePointForKey (numericTypes x) (numericType data) c) in
  let* sc := addCodePointForKey (scriptList x) (script data) c in
  let* blk := addCodePointForKey (blockList x) (block data) c in
  Ok (mkIndex sc gc bc bpt nt blk dm).
Fixpoint readAll (x : index) (d : characters) : res index :=
  match d with [] => Ok x | (_, data) :: r => let* x := readOne x data in readAll x r end.
(** UnicodeCharacterData.py:117-146; the two dictionaries live in the module, so a second call starts with what the first left *)
Definition read (groups : list (element * list element)) (st : characters * index) : res (characters * index) :=
  let* d := populateCharacterData (fst st) groups in
  let* x := readAll (snd st) d in
  Ok (d, x).
