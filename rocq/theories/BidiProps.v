(** * Model of UnicodeData/BidiProps.py

    The tables of BidiPropsData.py are a parameter; [icu_bidi] are the shipped ones. *)
From Coq Require Import ZArith List Bool Lia.
From Verif Require Import Py Arr UTrie2 Utilities Data_Bidi.
Import ListNotations.
Open Scope Z_scope.

Record bididata := mkBidiData { bidiPropsTrie : utrie2; indexes : arr; mirrors : list Z; jgArray : arr; jgArray2 : arr }.
(** BidiProps.py:69-70 and the lists of BidiPropsData.py *)
Definition icu_bidi : bididata := {|
  bidiPropsTrie := mkUTrie2 ubidi_props_trieIndex ubidi_props_trie_index_length ubidi_props_trie_index_2_null_offset
    ubidi_props_trie_data_null_offset ubidi_props_trie_high_start ubidi_props_trie_high_value_index 0;
  indexes := ubidi_props_indexes; mirrors := ubidi_props_mirrors_list; jgArray := ubidi_props_jgArray; jgArray2 := ubidi_props_jgArray2 |}.

(** BidiProps.py:23-62 *)
Definition UBIDI_IX_JG_START := 4.
Definition UBIDI_IX_JG_LIMIT := 5.
Definition UBIDI_IX_JG_START2 := 6.
Definition UBIDI_IX_JG_LIMIT2 := 7.
Definition UBIDI_JT_SHIFT := 5.
Definition UBIDI_BPT_SHIFT := 8.
Definition UBIDI_JOIN_CONTROL_SHIFT := 10.
Definition UBIDI_BIDI_CONTROL_SHIFT := 11.
Definition UBIDI_IS_MIRRORED_SHIFT := 12.
Definition UBIDI_MIRROR_DELTA_SHIFT := 13.
Definition UBIDI_MIRROR_DELTA_BITS := 16 - UBIDI_MIRROR_DELTA_SHIFT.
Definition UBIDI_CLASS_MASK := 0x1f.
Definition UBIDI_JT_MASK := 0xe0.
Definition UBIDI_BPT_MASK := 0x300.
Definition UBIDI_ESC_MIRROR_DELTA := -4.
Definition UBIDI_MIRROR_INDEX_SHIFT := 21.
(** uchar_h.py:567 *)
Definition U_JG_NO_JOINING_GROUP := 0.

(** BidiProps.py:51-52 *)
Definition getClassFromProps (props : Z) : Z := Z.land props UBIDI_CLASS_MASK.
(** BidiProps.py:54-55 *)
Definition getFlagFromProps (props shift : Z) : bool := negb (Z.land (Z.shiftr props shift) 1 =? 0).
(** BidiProps.py:57-58 *)
Definition getMirrorDeltaFromProps (props : Z) : res Z := arithmeticShift props 16 UBIDI_MIRROR_DELTA_BITS.
(** BidiProps.py:72-73 *)
Definition getMirrorCodePointFromProps (m : Z) : Z := Z.land m 0x1FFFFF.
(** BidiProps.py:75-76 *)
Definition getMirrorIndexFromProps (m : Z) : Z := Z.shiftr m UBIDI_MIRROR_INDEX_SHIFT.

Section BidiProps.
  Variable D : bididata.

  (** BidiProps.py:78-80 *)
  Definition getCharDirection (c : Z) : res Z := let* props := get (bidiPropsTrie D) c in Ok (getClassFromProps props).
  (** BidiProps.py:82-84 *)
  Definition isMirrored (c : Z) : res bool := let* props := get (bidiPropsTrie D) c in Ok (getFlagFromProps props UBIDI_IS_MIRRORED_SHIFT).

  (** BidiProps.py:92-102: the loop over the mirrors, [l] the part not yet seen *)
  Fixpoint searchMirrors (c : Z) (l : list Z) : res Z :=
    match l with
    | [] => Ok c
    | m :: r =>
      let c2 := getMirrorCodePointFromProps m in
      if c =? c2 then
        let mirrorIndex := getMirrorIndexFromProps m in
        let* m2 := py_get (mirrors D) mirrorIndex in Ok (getMirrorCodePointFromProps m2)
      else if c <? c2 then Ok c
      else searchMirrors c r
    end.
  (** BidiProps.py:86-102 *)
  Definition getMirrorFromProps (c props : Z) : res Z :=
    let* delta := getMirrorDeltaFromProps props in
    if negb (delta =? UBIDI_ESC_MIRROR_DELTA) then Ok (c + delta) else searchMirrors c (mirrors D).
  (** BidiProps.py:104-106 *)
  Definition getMirror (c : Z) : res Z := let* props := get (bidiPropsTrie D) c in getMirrorFromProps c props.
  (** BidiProps.py:108-110 *)
  Definition isBidiControl (c : Z) : res bool := let* props := get (bidiPropsTrie D) c in Ok (getFlagFromProps props UBIDI_BIDI_CONTROL_SHIFT).
  (** BidiProps.py:112-114 *)
  Definition isJoinControl (c : Z) : res bool := let* props := get (bidiPropsTrie D) c in Ok (getFlagFromProps props UBIDI_JOIN_CONTROL_SHIFT).
  (** BidiProps.py:116-118 *)
  Definition getJoiningType (c : Z) : res Z :=
    let* props := get (bidiPropsTrie D) c in Ok (Z.shiftr (Z.land props UBIDI_JT_MASK) UBIDI_JT_SHIFT).
  (** BidiProps.py:120-133 *)
  Definition getJoiningGroup (c : Z) : res Z :=
    let* start := aget (indexes D) UBIDI_IX_JG_START in
    let* limit := aget (indexes D) UBIDI_IX_JG_LIMIT in
    if (start <=? c) && (c <? limit) then aget (jgArray D) (c - start)
    else
      let* start := aget (indexes D) UBIDI_IX_JG_START2 in
      let* limit := aget (indexes D) UBIDI_IX_JG_LIMIT2 in
      if (start <=? c) && (c <? limit) then aget (jgArray2 D) (c - start)
      else Ok U_JG_NO_JOINING_GROUP.
  (** BidiProps.py:135-137 *)
  Definition getPairedBracketType (c : Z) : res Z :=
    let* props := get (bidiPropsTrie D) c in Ok (Z.shiftr (Z.land props UBIDI_BPT_MASK) UBIDI_BPT_SHIFT).
  (** BidiProps.py:139-144 *)
  Definition getPairedBracket (c : Z) : res Z :=
    let* props := get (bidiPropsTrie D) c in
    if Z.land props UBIDI_BPT_MASK =? 0 then Ok c else getMirrorFromProps c props.
End BidiProps.
