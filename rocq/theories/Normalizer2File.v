(** * Normalizer2.createFromFileData (UnicodeData/Normalizer2.py:129-154) and UnicodeData/LayoutProps.py *)
From Coq Require Import ZArith List Bool Lia.
From Verif Require Import Py Arr Bytes Dict CPTrie ICUDataFile Normalizer2.
Import ListNotations.
Open Scope Z_scope.

(** Normalizer2.py:39-41 *)
Definition IX_NORM_TRIE_OFFSET := 0.
Definition IX_EXTRA_DATA_OFFSET := 1.
Definition IX_SMALL_FCD_OFFSET := 2.

(** [.nrm] *)
Definition nrm : str := [46; 110; 114; 109].
(** [struct.unpack("I", ...)] *)
Definition unpackI (b : bytes) : res Z := let* l := unpack 4 1 b in match l with [x] => Ok x | _ => Err StructError end.

(** Normalizer2.py:129-154; [D] is the loaded ICU data *)
Definition createFromFileData (D : icuData) (package : str) : res norm2 :=
  let* (dataOffset, dataHeader) := getDataOffsetAndHeader D (package ++ nrm) in
  let baseOffset := dataOffset + ICUDataFile.headerLength dataHeader in
  let indicesStart := baseOffset in
  let* indicesCount := unpackI (getData D indicesStart (indicesStart + 4)) in
  let indicesCount := indicesCount / 4 in
  let indicesLimit := indicesStart + indicesCount * 4 in
  let* indices := unpack 4 indicesCount (getData D indicesStart indicesLimit) in
  let* t0 := py_get indices IX_NORM_TRIE_OFFSET in
  let trieStart := t0 + baseOffset in
  let* t1 := py_get indices IX_EXTRA_DATA_OFFSET in
  let trieLimit := t1 + baseOffset in
  let* trie := createFromData (getData D trieStart trieLimit) in
  let extraDataStart := trieLimit in
  let* t2 := py_get indices IX_SMALL_FCD_OFFSET in
  let extraDataLimit := t2 + baseOffset in
  let extraDataLength := (extraDataLimit - extraDataStart) / 2 in
  let* extra := unpack 2 extraDataLength (getData D extraDataStart extraDataLimit) in
  newNormalizer2 trie (arr_of_list indices) (arr_of_list extra).

(** ** UnicodeData/LayoutProps.py *)
(** LayoutProps.py:20-22 *)
Definition ULAYOUT_IX_INPC_TRIE_TOP := 1.
Definition ULAYOUT_IX_INSC_TRIE_TOP := 2.
Definition ULAYOUT_IX_VO_TRIE_TOP := 3.
(** [ulayout.icu] *)
Definition ulayout : str := [117; 108; 97; 121; 111; 117; 116; 46; 105; 99; 117].
(** LayoutProps.py:44-57: the module variables *)
Record layout := mkLayout { inpcTrie : cptrie; inscTrie : cptrie; voTrie : cptrie }.

(** LayoutProps.py:32-57, run when the module is imported *)
Definition loadLayout (D : icuData) : res layout :=
  let* (dataOffset, dataHeader) := getDataOffsetAndHeader D ulayout in
  let baseOffset := dataOffset + ICUDataFile.headerLength dataHeader in
  let indicesStart := baseOffset in
  let* indicesCount := unpackI (getData D indicesStart (indicesStart + 4)) in
  let indicesLimit := indicesStart + indicesCount * 4 in
  let* indices := unpack 4 indicesCount (getData D indicesStart indicesLimit) in
  let* t1 := py_get indices ULAYOUT_IX_INPC_TRIE_TOP in
  let* inpc := createFromData (getData D indicesLimit (t1 + baseOffset)) in
  let* t2 := py_get indices ULAYOUT_IX_INSC_TRIE_TOP in
  let* insc := createFromData (getData D (t1 + baseOffset) (t2 + baseOffset)) in
  let* t3 := py_get indices ULAYOUT_IX_VO_TRIE_TOP in
  let* vo := createFromData (getData D (t2 + baseOffset) (t3 + baseOffset)) in
  Ok (mkLayout inpc insc vo).

(** LayoutProps.py:59-66 *)
Definition getInPC (L : layout) (c : Z) : res Z := cpget (inpcTrie L) c.
Definition getInSC (L : layout) (c : Z) : res Z := cpget (inscTrie L) c.
Definition getVO (L : layout) (c : Z) : res Z := cpget (voTrie L) c.
