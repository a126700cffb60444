(** * Model of UnicodeData/Utrie2.py *)
From Coq Require Import ZArith List Bool Lia.
From Verif Require Import Py Arr UnicodeSet Utilities.
Import ListNotations.
Open Scope Z_scope.

(** Utrie2.py:14-40 *)
Definition SHIFT_1 : Z := 6 + 5.
Definition SHIFT_2 : Z := 5.
Definition SHIFT_1_2 : Z := SHIFT_1 - SHIFT_2.
Definition OMITTED_BMP_INDEX_1_LENGTH : Z := Z.shiftr 0x10000 SHIFT_1.
Definition CP_PER_INDEX_1_ENTRY : Z := Z.shiftl 1 SHIFT_1.
Definition INDEX_2_BLOCK_LENGTH : Z := Z.shiftl 1 SHIFT_1_2.
Definition INDEX_2_MASK : Z := INDEX_2_BLOCK_LENGTH - 1.
Definition DATA_BLOCK_LENGTH : Z := Z.shiftl 1 SHIFT_2.
Definition DATA_MASK : Z := DATA_BLOCK_LENGTH - 1.
Definition INDEX_SHIFT : Z := 2.
Definition LSCP_INDEX_2_OFFSET : Z := Z.shiftr 0x10000 SHIFT_2.
Definition LSCP_INDEX_2_LENGTH : Z := Z.shiftr 0x400 SHIFT_2.
Definition INDEX_2_BMP_LENGTH : Z := LSCP_INDEX_2_OFFSET + LSCP_INDEX_2_LENGTH.
Definition UTF8_2B_INDEX_2_OFFSET : Z := INDEX_2_BMP_LENGTH.
Definition UTF8_2B_INDEX_2_LENGTH : Z := Z.shiftr 0x800 6.
Definition INDEX_1_OFFSET : Z := UTF8_2B_INDEX_2_OFFSET + UTF8_2B_INDEX_2_LENGTH.
Definition BAD_UTF8_DATA_OFFSET : Z := 0x80.

(** Utrie2.py:42-50 [__init__]; dataLength is never used *)
Record utrie2 := mkUTrie2 {
  index : arr;
  indexLength : Z;
  index2NullOffset : Z;
  dataNullOffset : Z;
  highStart : Z;
  highValueIndex : Z;
  initialValue : Z }.

(** Utrie2.py:52-53 *)
Definition indexRaw (t : utrie2) (offset c : Z) : res Z :=
  let* x := aget (index t) (offset + Z.shiftr c SHIFT_2) in
  Ok (Z.shiftl x INDEX_SHIFT + Z.land c DATA_MASK).

(** Utrie2.py:63-67 *)
Definition indexFromSupp (t : utrie2) (c : Z) : res Z :=
  let index1 := (INDEX_1_OFFSET - OMITTED_BMP_INDEX_1_LENGTH) + Z.shiftr c SHIFT_1 in
  let* x := aget (index t) index1 in
  let index2 := x + Z.land (Z.shiftr c SHIFT_2) INDEX_2_MASK in
  let* y := aget (index t) index2 in
  Ok (Z.shiftl y INDEX_SHIFT + Z.land c DATA_MASK).

(** Utrie2.py:81-92 *)
Definition indexFromCodePoint (t : utrie2) (asciiOffset c : Z) : res Z :=
  if c <? 0xD800 then indexRaw t 0 c
  else if c <=? 0xFFFF then
    let offset := if c >=? 0xDC00 then 0 else LSCP_INDEX_2_OFFSET - Z.shiftr 0xD800 SHIFT_2 in
    indexRaw t offset c
  else if c >=? 0x10FFFF then Ok (asciiOffset + BAD_UTF8_DATA_OFFSET)
  else if c >=? highStart t then Ok (highValueIndex t)
  else indexFromSupp t c.

(** Utrie2.py:94-95 *)
Definition get (t : utrie2) (c : Z) : res Z :=
  let* i := indexFromCodePoint t (indexLength t) c in aget (index t) i.

(** ** enumerator *)
Section Enumerator.
  (** [valueFunction] with its keyword arguments applied, a function that does not
      raise; [veq] is Python's [==] on its results. *)
  Context {V : Type} (veq : V -> V -> bool) (vf : Z -> V).
  Variable t : utrie2.
  Variable limit : Z.

  (** the local variables of the generator and the ranges yielded so far, newest
      first *)
  Record est := mkEst {
    e_c : Z; e_prev : Z; e_value : V; e_block : Z; e_i2block : Z; e_out : list (Z * Z * V) }.

  Definition out_before (s : est) : list (Z * Z * V) :=
    if e_prev s <? e_c s then (e_prev s, e_c s, e_value s) :: e_out s else e_out s.

  (** [if value != prevValue: if prev < c: yield range(prev, c), prevValue;
       prev = c; prevValue = value]   (Utrie2.py:147-152, 183-187, 195-199, 208-212) *)
  Definition note (s : est) (value : V) : est :=
    if veq value (e_value s) then s
    else mkEst (e_c s) (e_c s) value (e_block s) (e_i2block s) (out_before s).

  Definition advance (s : est) (n : Z) : est :=
    mkEst (e_c s + n) (e_prev s) (e_value s) (e_block s) (e_i2block s) (e_out s).
  Definition set_block (s : est) (b : Z) : est :=
    mkEst (e_c s) (e_prev s) (e_value s) b (e_i2block s) (e_out s).
  Definition set_i2block (s : est) (b : Z) : est :=
    mkEst (e_c s) (e_prev s) (e_value s) (e_block s) b (e_out s).

  Definition initV : V := vf (initialValue t).

  (** Utrie2.py:193-201 the loop over the values of a data block *)
  Fixpoint jloop (block : Z) (js : list Z) (s : est) : res est :=
    match js with
    | [] => Ok s
    | j :: rest =>
        let* x := aget (index t) (block + j) in
        jloop block rest (advance (note s (vf x)) 1)
    end.

  (** Utrie2.py:172-201 the body of the loop over data blocks *)
  Definition i2body (i2Block tempLimit i2 : Z) (s : est) : res est :=
    let* x := aget (index t) (i2Block + i2) in
    let block := Z.shiftl x INDEX_SHIFT in
    if (block =? e_block s) && (e_c s - e_prev s >=? DATA_BLOCK_LENGTH)
    then Ok (advance s DATA_BLOCK_LENGTH)
    else
      let s := set_block s block in
      if block =? dataNullOffset t
      then Ok (advance (note s initV) DATA_BLOCK_LENGTH)
      else
        let jStart := Z.land (e_c s) DATA_MASK in
        let jLimit := Z.min DATA_BLOCK_LENGTH (jStart + tempLimit - e_c s) in
        jloop block (py_range jStart jLimit 1) s.

  Fixpoint i2loop (i2Block tempLimit : Z) (is : list Z) (s : est) : res est :=
    match is with
    | [] => Ok s
    | i2 :: rest => let* s' := i2body i2Block tempLimit i2 s in i2loop i2Block tempLimit rest s'
    end.

  (** Utrie2.py:114-135 choose the index-2 block: (i2Block, tempLimit) *)
  Definition choose (c : Z) : res (Z * Z) :=
    let tempLimit := Z.min (c + CP_PER_INDEX_1_ENTRY) limit in
    if c <=? 0xFFFF then
      if negb (isSurrogate c) then
        Ok (Z.shiftr c SHIFT_2, if tempLimit >? 0x10000 then 0x10000 else tempLimit)
      else if isSurrogateLead c then Ok (LSCP_INDEX_2_OFFSET, Z.min 0xDC00 limit)
      else Ok (Z.shiftr 0xDC00 SHIFT_2, Z.min 0xE000 limit)
    else
      let* b := aget (index t) ((INDEX_1_OFFSET - OMITTED_BMP_INDEX_1_LENGTH) + Z.shiftr c SHIFT_1) in
      Ok (b, tempLimit).

  (** Utrie2.py:157-170 the bounds of the loop over data blocks *)
  Definition i2bounds (c i2Block tempLimit : Z) : Z * Z :=
    if c <=? 0xFFFF then
      let i2Limit := Z.shiftr tempLimit SHIFT_2 - i2Block in
      (0, if i2Limit <? 0 then 0 else i2Limit)
    else
      (Z.land (Z.shiftr c SHIFT_2) INDEX_2_MASK,
       if negb (Z.shiftr c SHIFT_1 =? Z.shiftr tempLimit SHIFT_1) then INDEX_2_BLOCK_LENGTH
       else Z.land (Z.shiftr tempLimit SHIFT_2) INDEX_2_MASK).

  (** Utrie2.py:112-201 one pass of the outer while loop *)
  Definition outer_body (s : est) : res est :=
    let c := e_c s in
    let* (i2Block, tempLimit) := choose c in
    if negb (c <=? 0xFFFF) && (i2Block =? e_i2block s) && (c - e_prev s >=? CP_PER_INDEX_1_ENTRY)
    then Ok (advance s CP_PER_INDEX_1_ENTRY)
    else
      let s := set_i2block s i2Block in
      if i2Block =? index2NullOffset t then
        Ok (advance (if veq (e_value s) initV then s else set_block (note s initV) (dataNullOffset t))
                    CP_PER_INDEX_1_ENTRY)
      else
        let (i2Start, i2Limit) := i2bounds c i2Block tempLimit in
        i2loop i2Block tempLimit (py_range i2Start (i2Limit + 1) 1) s.

  (** Utrie2.py:111 the condition; [inr] ends the loop *)
  Definition outer_step (s : est) : est + res est :=
    if (e_c s <? limit) && (e_c s <? highStart t) then
      match outer_body s with Ok s' => inl s' | Err e => inr (Err e) end
    else inr (Ok s).

  (** Utrie2.py:203-217 the tail *)
  Definition finish (s : est) : res (list (Z * Z * V)) :=
    let c := e_c s in
    let* s :=
      (if c >? limit then Ok (mkEst limit (e_prev s) (e_value s) (e_block s) (e_i2block s) (e_out s))
       else if c <? limit then
         let* x := aget (index t) (highValueIndex t) in
         let s := note s (vf x) in
         Ok (mkEst limit (e_prev s) (e_value s) (e_block s) (e_i2block s) (e_out s))
       else Ok s) in
    Ok (rev (out_before s)).

  (** Utrie2.py:97-217.  The list of everything the generator yields. *)
  Definition enumerator (start : Z) : res (list (Z * Z * V)) :=
    let s0 := mkEst start start (vf 0) (-1) (-1) [] in
    match run outer_step (Z.to_pos (limit - start + 1)) s0 with
    | inl _ => Err OutOfFuel
    | inr (Ok s) => finish s
    | inr (Err e) => Err e
    end.
End Enumerator.
