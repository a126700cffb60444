(** * Model of UnicodeData/CaseProps.py

    The tables of CasePropsData.py are a parameter, so that theorems about the code
    hold for all tables; [icu_case] are the shipped ones.  A Python [str] is the
    list of its code points. *)
From Coq Require Import ZArith List Bool Lia.
From Verif Require Import Py Arr UTrie2 Utilities Data_Case.
Import ListNotations.
Open Scope Z_scope.

Record casedata := mkCaseData { casePropsTrie : utrie2; exceptions : arr }.
(** CaseProps.py:313-314 *)
Definition icu_case : casedata := {|
  casePropsTrie := mkUTrie2 ucase_props_trieIndex ucase_props_trie_index_length ucase_props_trie_index_2_null_offset
    ucase_props_trie_data_null_offset ucase_props_trie_high_start ucase_props_trie_high_value_index 0;
  exceptions := ucase_props_exceptions |}.

(** CaseProps.py:23-94 *)
Definition UCASE_TYPE_MASK := 3.
Definition UCASE_LOWER := 1.
Definition UCASE_UPPER := 2.
Definition UCASE_TITLE := 3.
Definition UCASE_IGNORABLE := 4.
Definition UCASE_EXCEPTION := 8.
Definition UCASE_PROPS_BITS := 16.
Definition UCASE_DELTA_BITS := 9.
Definition UCASE_EXC_SHIFT := 4.
Definition UCASE_EXC_LOWER := 0.
Definition UCASE_EXC_FOLD := 1.
Definition UCASE_EXC_UPPER := 2.
Definition UCASE_EXC_TITLE := 3.
Definition UCASE_EXC_DELTA := 4.
Definition UCASE_EXC_FULL_MAPPINGS := 7.
Definition UCASE_EXC_DOUBLE_SLOTS := 0x100.
Definition UCASE_EXC_DELTA_IS_NEGATIVE := 0x400.
Definition UCASE_EXC_CONDITIONAL_SPECIAL := 0x4000.
Definition UCASE_FULL_LOWER := 0xf.

(** CaseProps.py:101-118 *)
Definition flagsOffset : list Z := [
    0; 1; 1; 2; 1; 2; 2; 3; 1; 2; 2; 3; 2; 3; 3; 4;
    1; 2; 2; 3; 2; 3; 3; 4; 2; 3; 3; 4; 3; 4; 4; 5;
    1; 2; 2; 3; 2; 3; 3; 4; 2; 3; 3; 4; 3; 4; 4; 5;
    2; 3; 3; 4; 3; 4; 4; 5; 3; 4; 4; 5; 4; 5; 5; 6;
    1; 2; 2; 3; 2; 3; 3; 4; 2; 3; 3; 4; 3; 4; 4; 5;
    2; 3; 3; 4; 3; 4; 4; 5; 3; 4; 4; 5; 4; 5; 5; 6;
    2; 3; 3; 4; 3; 4; 4; 5; 3; 4; 4; 5; 4; 5; 5; 6;
    3; 4; 4; 5; 4; 5; 5; 6; 4; 5; 5; 6; 5; 6; 6; 7;
    1; 2; 2; 3; 2; 3; 3; 4; 2; 3; 3; 4; 3; 4; 4; 5;
    2; 3; 3; 4; 3; 4; 4; 5; 3; 4; 4; 5; 4; 5; 5; 6;
    2; 3; 3; 4; 3; 4; 4; 5; 3; 4; 4; 5; 4; 5; 5; 6;
    3; 4; 4; 5; 4; 5; 5; 6; 4; 5; 5; 6; 5; 6; 6; 7;
    2; 3; 3; 4; 3; 4; 4; 5; 3; 4; 4; 5; 4; 5; 5; 6;
    3; 4; 4; 5; 4; 5; 5; 6; 4; 5; 5; 6; 5; 6; 6; 7;
    3; 4; 4; 5; 4; 5; 5; 6; 4; 5; 5; 6; 5; 6; 6; 7;
    4; 5; 5; 6; 5; 6; 6; 7; 5; 6; 6; 7; 6; 7; 7; 8].

(** CaseProps.py:120-121 *)
Definition getDeltaFromProps (props : Z) : res Z := arithmeticShift props UCASE_PROPS_BITS UCASE_DELTA_BITS.
(** CaseProps.py:123-124 *)
Definition getTypeFromProps (props : Z) : Z := Z.land props UCASE_TYPE_MASK.
(** CaseProps.py:126-127 *)
Definition getTypeAndIgnorableFromProps (props : Z) : Z := Z.land props (Z.lor UCASE_TYPE_MASK UCASE_IGNORABLE).
(** CaseProps.py:129-130 *)
Definition isUpperOrTitle (props : Z) : bool := negb (Z.land props (Z.land UCASE_UPPER UCASE_TITLE) =? 0).
(** CaseProps.py:132-133 *)
Definition hasException (props : Z) : bool := negb (Z.land props UCASE_EXCEPTION =? 0).
(** CaseProps.py:135-136 *)
Definition hasSlot (flags index : Z) : bool := negb (Z.land flags (Z.shiftl 1 index) =? 0).
(** CaseProps.py:138-139 *)
Definition slotOffset (flags index : Z) : res Z := py_get flagsOffset (Z.land flags (Z.shiftl 1 index - 1)).

Section CaseProps.
  Variable D : casedata.

  (** CaseProps.py:141-148 *)
  Definition getSlotValue (excWord index exceptionIndex : Z) : res (Z * Z) :=
    let* slot_offset := slotOffset excWord index in
    if Z.land excWord UCASE_EXC_DOUBLE_SLOTS =? 0 then
      let* v := aget (exceptions D) (exceptionIndex + slot_offset) in Ok (v, slot_offset)
    else
      let exceptionIndex := exceptionIndex + 2 * slot_offset in
      let* hi := aget (exceptions D) exceptionIndex in
      let* lo := aget (exceptions D) (exceptionIndex + 1) in
      Ok (Z.lor (Z.shiftl hi 16) lo, 2 * slot_offset + 1).

  (** [c + delta if (excWord & UCASE_EXC_DELTA_IS_NEGATIVE) == 0 else c - delta] *)
  Definition add_delta (excWord c delta : Z) : Z :=
    if Z.land excWord UCASE_EXC_DELTA_IS_NEGATIVE =? 0 then c + delta else c - delta.

  (** CaseProps.py:150-168 *)
  Definition toLower (c : Z) : res Z :=
    let* props := get (casePropsTrie D) c in
    if negb (hasException props) then
      if isUpperOrTitle props then let* d := getDeltaFromProps props in Ok (c + d) else Ok c
    else
      let exceptionIndex := Z.shiftr props UCASE_EXC_SHIFT in
      let* excWord := aget (exceptions D) exceptionIndex in
      let exceptionIndex := exceptionIndex + 1 in
      if hasSlot excWord UCASE_EXC_DELTA && isUpperOrTitle props then
        let* (delta, _) := getSlotValue excWord UCASE_EXC_DELTA exceptionIndex in Ok (add_delta excWord c delta)
      else if hasSlot excWord UCASE_EXC_LOWER then
        let* (c, _) := getSlotValue excWord UCASE_EXC_LOWER exceptionIndex in Ok c
      else Ok c.

  (** CaseProps.py:170-187 *)
  Definition toUpper (c : Z) : res Z :=
    let* props := get (casePropsTrie D) c in
    if negb (hasException props) then
      if getTypeFromProps props =? UCASE_LOWER then let* d := getDeltaFromProps props in Ok (c + d) else Ok c
    else
      let exceptionIndex := Z.shiftr props UCASE_EXC_SHIFT in
      let* excWord := aget (exceptions D) exceptionIndex in
      let exceptionIndex := exceptionIndex + 1 in
      if hasSlot excWord UCASE_EXC_DELTA && (getTypeFromProps props =? UCASE_LOWER) then
        let* (delta, _) := getSlotValue excWord UCASE_EXC_DELTA exceptionIndex in Ok (add_delta excWord c delta)
      else if hasSlot excWord UCASE_EXC_UPPER then
        let* (c, _) := getSlotValue excWord UCASE_EXC_UPPER exceptionIndex in Ok c
      else Ok c.

  (** CaseProps.py:189-207; the [for] loop over two slots is unrolled *)
  Definition toTitle (c : Z) : res Z :=
    let* props := get (casePropsTrie D) c in
    if negb (hasException props) then
      if getTypeFromProps props =? UCASE_LOWER then let* d := getDeltaFromProps props in Ok (c + d) else Ok c
    else
      let exceptionIndex := Z.shiftr props UCASE_EXC_SHIFT in
      let* excWord := aget (exceptions D) exceptionIndex in
      let exceptionIndex := exceptionIndex + 1 in
      if hasSlot excWord UCASE_EXC_DELTA && (getTypeFromProps props =? UCASE_LOWER) then
        let* (delta, _) := getSlotValue excWord UCASE_EXC_DELTA exceptionIndex in Ok (add_delta excWord c delta)
      else if hasSlot excWord UCASE_EXC_TITLE then
        let* (v, _) := getSlotValue excWord UCASE_EXC_TITLE exceptionIndex in Ok v
      else if hasSlot excWord UCASE_EXC_UPPER then
        let* (v, _) := getSlotValue excWord UCASE_EXC_UPPER exceptionIndex in Ok v
      else Ok c.

  (** [for i in range(n): chars.append(chr(ucase_props_exceptions[start + i]))], joined *)
  Definition read_chars (start n : Z) : res (list Z) :=
    let* l := mapM (fun i => let* x := aget (exceptions D) (start + Z.of_nat i) in py_chr x) (seq 0 (Z.to_nat n)) in
    Ok (concat l).

  (** CaseProps.py:210-246 *)
  Definition toFullLower (c : Z) : res (list Z) :=
    let* result := py_chr c in
    let* props := get (casePropsTrie D) c in
    if negb (hasException props) then
      if isUpperOrTitle props then let* d := getDeltaFromProps props in py_chr (c + d) else Ok result
    else
      let exceptionIndex := Z.shiftr props UCASE_EXC_SHIFT in
      let* excWord := aget (exceptions D) exceptionIndex in
      let exceptionIndex := exceptionIndex + 1 in
      let exceptionIndex2 := exceptionIndex in
      let rest :=
        if hasSlot excWord UCASE_EXC_DELTA && isUpperOrTitle props then
          let* (delta, _) := getSlotValue excWord UCASE_EXC_DELTA exceptionIndex2 in py_chr (add_delta excWord c delta)
        else if hasSlot excWord UCASE_EXC_LOWER then
          let* (ch, _) := getSlotValue excWord UCASE_EXC_LOWER exceptionIndex2 in py_chr ch
        else Ok result in
      if negb (Z.land excWord UCASE_EXC_CONDITIONAL_SPECIAL =? 0) then
        if c =? 0x0130 then Ok [0x69; 0x307] else rest
      else if hasSlot excWord UCASE_EXC_FULL_MAPPINGS then
        let* (full, offset) := getSlotValue excWord UCASE_EXC_FULL_MAPPINGS exceptionIndex in
        let full := Z.land full UCASE_FULL_LOWER in
        if negb (full =? 0) then read_chars (exceptionIndex + (offset + 1)) full else rest
      else rest.

  (** CaseProps.py:249-305 *)
  Definition toUpperOrTitle (c : Z) (upperNotTitle : bool) : res (list Z) :=
    let* result := py_chr c in
    let* props := get (casePropsTrie D) c in
    if negb (hasException props) then
      if getTypeFromProps props =? UCASE_LOWER then let* d := getDeltaFromProps props in py_chr (c + d) else Ok result
    else
      let exceptionIndex := Z.shiftr props UCASE_EXC_SHIFT in
      let* excWord := aget (exceptions D) exceptionIndex in
      let exceptionIndex := exceptionIndex + 1 in
      let exceptionIndex2 := exceptionIndex in
      let rest :=
        if hasSlot excWord UCASE_EXC_DELTA && (getTypeFromProps props =? UCASE_LOWER) then
          let* (delta, _) := getSlotValue excWord UCASE_EXC_DELTA exceptionIndex2 in py_chr (add_delta excWord c delta)
        else if negb upperNotTitle && hasSlot excWord UCASE_EXC_TITLE then
          let* (ch, _) := getSlotValue excWord UCASE_EXC_TITLE exceptionIndex2 in py_chr ch
        else if hasSlot excWord UCASE_EXC_UPPER then
          let* (ch, _) := getSlotValue excWord UCASE_EXC_UPPER exceptionIndex2 in py_chr ch
        else Ok result in
      if negb (Z.land excWord UCASE_EXC_CONDITIONAL_SPECIAL =? 0) then
        if c =? 0x0587 then Ok (if upperNotTitle then [0x535; 0x552] else [0x535; 0x582]) else rest
      else if hasSlot excWord UCASE_EXC_FULL_MAPPINGS then
        let* (full, offset) := getSlotValue excWord UCASE_EXC_FULL_MAPPINGS exceptionIndex in
        let exceptionIndex := exceptionIndex + (offset + 1 + Z.land full UCASE_FULL_LOWER) in
        let full := Z.shiftr full 4 in
        let exceptionIndex := exceptionIndex + Z.land full 0xF in
        let full := Z.shiftr full 4 in
        let (full, exceptionIndex) :=
          if upperNotTitle then (Z.land full 0xF, exceptionIndex)
          else (Z.land (Z.shiftr full 4) 0xF, exceptionIndex + Z.land full 0xF) in
        if negb (full =? 0) then read_chars exceptionIndex full else rest
      else rest.

  (** CaseProps.py:307-311 *)
  Definition toFullUpper (c : Z) : res (list Z) := toUpperOrTitle c true.
  Definition toFullTitle (c : Z) : res (list Z) := toUpperOrTitle c false.
End CaseProps.
