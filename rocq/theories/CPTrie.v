(** * Model of UnicodeData/CPTrie.py *)
From Coq Require Import ZArith List Bool Lia.
From Verif Require Import Py Arr Bytes UnicodeSet.
Import ListNotations.
Open Scope Z_scope.

(** CPTrie.py:14-108 *)
Definition FAST_SHIFT : Z := 6.
Definition FAST_DATA_BLOCK_LENGTH : Z := Z.shiftl 1 FAST_SHIFT.
Definition FAST_DATA_MASK : Z := FAST_DATA_BLOCK_LENGTH - 1.
Definition SMALL_MAX : Z := 0xfff.
Definition ERROR_VALUE_NEG_DATA_OFFSET : Z := 1.
Definition HIGH_VALUE_NEG_DATA_OFFSET : Z := 2.
Definition BMP_INDEX_LENGTH : Z := Z.shiftr 0x10000 FAST_SHIFT.
Definition SMALL_LIMIT : Z := 0x1000.
Definition SMALL_INDEX_LENGTH : Z := Z.shiftr SMALL_LIMIT FAST_SHIFT.
Definition CP_SHIFT_3 : Z := 4.
Definition CP_SHIFT_2 : Z := 5 + CP_SHIFT_3.
Definition CP_SHIFT_1 : Z := 5 + CP_SHIFT_2.
Definition CP_SHIFT_2_3 : Z := CP_SHIFT_2 - CP_SHIFT_3.
Definition CP_SHIFT_1_2 : Z := CP_SHIFT_1 - CP_SHIFT_2.
Definition CP_OMITTED_BMP_INDEX_1_LENGTH : Z := Z.shiftr 0x10000 CP_SHIFT_1.
Definition CP_INDEX_2_MASK : Z := Z.shiftl 1 CP_SHIFT_1_2 - 1.
Definition CP_PER_INDEX_2_ENTRY : Z := Z.shiftl 1 CP_SHIFT_2.
Definition CP_INDEX_3_MASK : Z := Z.shiftl 1 CP_SHIFT_2_3 - 1.
Definition SMALL_DATA_BLOCK_LENGTH : Z := Z.shiftl 1 CP_SHIFT_3.
Definition SMALL_DATA_MASK : Z := SMALL_DATA_BLOCK_LENGTH - 1.
Definition TYPE_FAST : Z := 0.
Definition TYPE_SMALL : Z := 1.

(** CPTrie.py:151-161 [__init__]; indexLength and shifted12HighStart are stored but
    never read; dataLength is [len(data)] *)
Record cptrie := mkCPTrie {
  cp_index : arr;
  cp_data : arr;
  cp_type : Z;
  cp_width : Z;
  cp_index3NullOffset : Z;
  cp_dataNullOffset : Z;
  cp_highStart : Z;
  cp_shifted12HighStart : Z }.
Definition cp_dataLength (t : cptrie) : Z := alen (cp_data t).

(** CPTrie.py:151-161: [self.indexLength = index[0]] raises on an empty index *)
Definition newCPTrie (index data : list Z) (ty w i3null dnull high s12 : Z) : res cptrie :=
  let* _ := py_get index 0 in
  Ok (mkCPTrie (arr_of_list index) (arr_of_list data) ty w i3null dnull high s12).

(** CPTrie.py:163-195 (header format: lines 121-149, seven fields of 4,2,2,2,2,2,2 bytes) *)
Definition headerLength : Z := 16.
Definition createFromData (b : bytes) : res cptrie :=
  let h := py_slice b 0 headerLength in
  let* sg := unpack 4 1 (py_slice h 0 4) in
  let* f := unpack 2 6 (py_slice h 4 (zlen h)) in
  match f with
  | [options; indexLength; dataLength0; index3NullOffset; dataNullOffset0; shiftedHighStart] =>
      let trieType := Z.land (Z.shiftr options 6) 3 in
      let valueWidth := Z.land options 7 in
      let dataLength := Z.lor (Z.shiftl (Z.land options 0xf000) 4) dataLength0 in
      let dataNullOffset := Z.lor (Z.shiftl (Z.land options 0xf00) 8) dataNullOffset0 in
      let highStart := Z.shiftl shiftedHighStart CP_SHIFT_2 in
      let shifted12HighStart := Z.shiftr (highStart + 0xfff) 12 in
      let indexStart := headerLength in
      let indexLimit := indexStart + 2 * indexLength in
      let* index := unpack 2 indexLength (py_slice b indexStart indexLimit) in
      let dataStart := indexLimit in
      let w := if valueWidth =? 0 then 2 else if valueWidth =? 1 then 4 else 1 in
      let dataLimit := dataStart + w * dataLength in
      let* data := unpack w dataLength (py_slice b dataStart dataLimit) in
      newCPTrie index data trieType valueWidth index3NullOffset dataNullOffset highStart shifted12HighStart
  | _ => Err StructError
  end.

(** CPTrie.py:197-198 *)
Definition fastIndex (t : cptrie) (c : Z) : res Z :=
  let* x := aget (cp_index t) (Z.shiftr c FAST_SHIFT) in
  Ok (x + Z.land c FAST_DATA_MASK).

(** CPTrie.py:211-219, also 299-306: entry [i3] of an index-3 block *)
Definition index3 (t : cptrie) (i3Block i3 : Z) : res Z :=
  if Z.land i3Block 0x8000 =? 0 then aget (cp_index t) (i3Block + i3)
  else
    let group := Z.land i3Block 0x7fff + Z.land i3 (Z.lnot 7) + Z.shiftr i3 3 in
    let gi := Z.land i3 7 in
    let* hi := aget (cp_index t) group in
    let* lo := aget (cp_index t) (group + 1 + gi) in
    Ok (Z.lor (Z.land (Z.shiftl hi (2 + 2 * gi)) 0x30000) lo).

(** CPTrie.py:201-208, also 265-273: the index-3 block of [c] *)
Definition i3BlockOf (t : cptrie) (c : Z) : res Z :=
  let i1 := Z.shiftr c CP_SHIFT_1 +
    (if cp_type t =? TYPE_FAST then BMP_INDEX_LENGTH - CP_OMITTED_BMP_INDEX_1_LENGTH else SMALL_INDEX_LENGTH) in
  let* x := aget (cp_index t) i1 in
  aget (cp_index t) (x + Z.land (Z.shiftr c CP_SHIFT_2) CP_INDEX_2_MASK).

(** CPTrie.py:200-221 *)
Definition internalSmallIndex (t : cptrie) (c : Z) : res Z :=
  let* i3Block := i3BlockOf t c in
  let* dataBlock := index3 t i3Block (Z.land (Z.shiftr c CP_SHIFT_3) CP_INDEX_3_MASK) in
  Ok (dataBlock + Z.land c SMALL_DATA_MASK).

(** CPTrie.py:223-226 *)
Definition smallIndex (t : cptrie) (c : Z) : res Z :=
  if c >=? cp_highStart t then Ok (cp_dataLength t - HIGH_VALUE_NEG_DATA_OFFSET)
  else internalSmallIndex t c.

(** CPTrie.py:228-235 *)
Definition cpIndex (t : cptrie) (fastMax c : Z) : res Z :=
  if c <=? fastMax then fastIndex t c
  else if c <=? 0x10FFFF then smallIndex t c
  else Ok (cp_dataLength t - ERROR_VALUE_NEG_DATA_OFFSET).

(** CPTrie.py:237-244 *)
Definition cpget (t : cptrie) (c : Z) : res Z :=
  let* dataIndex :=
    (if c <=? 0x7F then Ok c
     else cpIndex t (if cp_type t =? TYPE_FAST then 0xFFFF else SMALL_MAX) c) in
  aget (cp_data t) dataIndex.

(** ** enumerator (CPTrie.py:246-351) *)

(** the local variables and the ranges yielded so far, newest first *)
Record cst := mkCst { k_c : Z; k_prev : Z; k_value : Z; k_block : Z; k_i3block : Z; k_out : list (Z * Z * Z) }.

Definition k_yield (s : cst) : list (Z * Z * Z) :=
  if k_prev s <? k_c s then (k_prev s, k_c s, k_value s) :: k_out s else k_out s.
(** lines 283-286, 317-320, 326-329, 335-338 *)
Definition k_note (s : cst) (v : Z) : cst :=
  if v =? k_value s then s
  else mkCst (k_c s) (k_c s) v (k_block s) (k_i3block s) (k_yield s).
Definition k_setc (s : cst) (c : Z) : cst := mkCst c (k_prev s) (k_value s) (k_block s) (k_i3block s) (k_out s).
Definition k_setblock (s : cst) (b : Z) : cst := mkCst (k_c s) (k_prev s) (k_value s) b (k_i3block s) (k_out s).
Definition k_seti3 (s : cst) (b : Z) : cst := mkCst (k_c s) (k_prev s) (k_value s) (k_block s) b (k_out s).

Section CPEnum.
  Variable t : cptrie.
  Variables start limit nullValue : Z.

  (** lines 325-340: the values of a data block from [c] on.  [n] bounds the number
      of steps: the loop stops at the next multiple of the block length. *)
  Fixpoint dloop (n : nat) (mask di : Z) (s : cst) : res cst :=
    match n with
    | O => Err OutOfFuel
    | S m =>
        let* v := aget (cp_data t) di in
        let s := k_setc (k_note s v) (k_c s + 1) in
        if (k_c s <? limit) && negb (Z.land (k_c s) mask =? 0) then dloop m mask (di + 1) s
        else Ok s
    end.

  (** lines 297-340: the loop over the data blocks of an index-3 block *)
  Fixpoint bloop (i3Block blockLength : Z) (i3s : list Z) (s : cst) : res cst :=
    match i3s with
    | [] => Ok s
    | i3 :: rest =>
        if k_c s >=? limit then Ok s
        else
          let* block := index3 t i3Block i3 in
          let mask := blockLength - 1 in
          let* s' :=
            (if (block =? k_block s) && (k_c s - start >=? blockLength) then
               if Z.land (k_c s) mask =? 0 then Ok (k_setc s (k_c s + blockLength)) else Err AssertionError
             else
               let s := k_setblock s block in
               if block =? cp_dataNullOffset t then
                 Ok (k_setc (k_note s nullValue) (Z.land (k_c s + blockLength) (Z.lnot mask)))
               else dloop (Z.to_nat blockLength) mask (block + Z.land (k_c s) mask) s) in
          bloop i3Block blockLength rest s'
    end.

  (** lines 258-340: one pass of the outer loop *)
  Definition cp_body (s : cst) : res cst :=
    let c := k_c s in
    if (c <=? 0xFFFF) && ((cp_type t =? TYPE_FAST) || (c <=? SMALL_MAX)) then
      bloop 0 FAST_DATA_BLOCK_LENGTH (py_range (Z.shiftr c FAST_SHIFT) FAST_DATA_BLOCK_LENGTH 1) s
    else if negb (if cp_type t =? TYPE_FAST then (0xFFFF <? c) && (c <? cp_highStart t)
                  else (c <? cp_highStart t) && (cp_highStart t >? SMALL_LIMIT)) then Err AssertionError
    else
      let* i3Block := i3BlockOf t c in
      if (i3Block =? k_i3block s) && (c - start >=? CP_PER_INDEX_2_ENTRY) then
        if Z.land c (CP_PER_INDEX_2_ENTRY - 1) =? 0 then Ok (k_setc s (c + CP_PER_INDEX_2_ENTRY))
        else Err AssertionError
      else
        let s := k_seti3 s i3Block in
        if i3Block =? cp_index3NullOffset t then
          Ok (k_setc (k_setblock (k_note s nullValue) (cp_dataNullOffset t))
                (Z.land (c + CP_PER_INDEX_2_ENTRY) (Z.lnot (CP_PER_INDEX_2_ENTRY - 1))))
        else
          bloop i3Block SMALL_DATA_BLOCK_LENGTH
            (py_range (Z.land (Z.shiftr c CP_SHIFT_3) CP_INDEX_3_MASK) SMALL_DATA_BLOCK_LENGTH 1) s.

  (** line 257 *)
  Definition cp_step (s : cst) : cst + res cst :=
    if (k_c s <? limit) && (k_c s <? cp_highStart t) then
      match cp_body s with Ok s' => inl s' | Err e => inr (Err e) end
    else inr (Ok s).

  (** lines 342-351; the range yielded at line 348 is yielded again at line 351 *)
  Definition cp_finish (s : cst) : res (list (Z * Z * Z)) :=
    let* s :=
      (if k_c s >? limit then Ok (k_setc s limit)
       else if k_c s <? limit then
         let* v := aget (cp_data t) (cp_dataLength t - HIGH_VALUE_NEG_DATA_OFFSET) in
         Ok (if v =? k_value s then s
             else mkCst (k_c s) (k_prev s) (k_value s) (k_block s) (k_i3block s) (k_yield s))
       else Ok s) in
    Ok (rev (k_yield s)).
End CPEnum.

(** Everything the generator yields; [fuel] bounds the passes of the outer loop. *)
Definition cpenum (t : cptrie) (fuel : nat) (start limit : Z) : res (list (Z * Z * Z)) :=
  if (start >=? 0x110000) || (start >=? cp_highStart t) then Ok []
  else
    let* nullValue := aget (cp_data t) (cp_dataNullOffset t) in
    match run_nat (cp_step t start limit nullValue) fuel (mkCst start start nullValue (-1) (-1) []) with
    | inl _ => Err OutOfFuel
    | inr (Ok s) => cp_finish t limit s
    | inr (Err e) => Err e
    end.
