(** * Model of UnicodeData/ICUDataFile.py

    [ICUData] keeps its data in class attributes: the contents of the data file and
    the offsets of the items in it.  They are a record here; the methods take it and
    those that change it return it.  [fontTools]'s sstruct reads these formats with
    native byte order; the machine is taken to be little-endian (see Bytes.v). *)
From Coq Require Import ZArith List Bool Lia.
From Verif Require Import Py Bytes Dict.
Import ListNotations.
Open Scope Z_scope.

(** ICUDataFile.py:37-56; only headerLength is used by the rest of the code *)
Record dataHeader := mkHeader { headerLength : Z; magic1 : Z; magic2 : Z; infoSize : Z; reservedWord : Z; isBigEndian : Z; charsetFamily : Z;
  sizeofUChar : Z; reservedByte : Z; dataFormat : bytes; versions : bytes }.
(** ICUDataFile.py:19-35: H B B H H B B B B 4s 8B, without padding *)
Definition dataHeaderLength : Z := 24.
Definition unpackHeader (b : bytes) : res dataHeader :=
  if negb (zlen b =? dataHeaderLength) then Err StructError
  else
    let byte := fun i => nth (Z.to_nat i) b 0 in
    Ok (mkHeader (le (py_slice b 0 2)) (byte 2) (byte 3) (le (py_slice b 4 6)) (le (py_slice b 6 8)) (byte 8) (byte 9) (byte 10) (byte 11)
      (py_slice b 12 16) (py_slice b 16 24)).
(** ICUDataFile.py:58-59 *)
Definition tocEntryLength : Z := 8.

(** ICUDataFile.py:66-68 *)
Record icuData := mkICU { fileData : bytes; dataOffsets : dict Z }.
Definition noData : icuData := mkICU [] [].

(** ICUDataFile.py:74-76: the loop; there are at most [2 * len] bytes from any offset on *)
Fixpoint stringFrom (fuel : nat) (b : bytes) (offset : Z) : res str :=
  match fuel with
  | O => Err OutOfFuel
  | S m => let* x := py_get b offset in
           if negb (x =? 0) then let* r := stringFrom m b (offset + 1) in Ok (x :: r) else Ok []
  end.
(** ICUDataFile.py:70-78 *)
Definition getString (D : icuData) (offset : Z) : res str := stringFrom (S (length (fileData D) + length (fileData D))) (fileData D) offset.

(** [s.index("/")] *)
Fixpoint indexOf (x : Z) (s : str) : res Z :=
  match s with [] => Err ValueError | y :: r => if y =? x then Ok 0 else let* k := indexOf x r in Ok (k + 1) end.
(** ICUDataFile.py:80-84 *)
Definition getName (D : icuData) (offset : Z) : res str :=
  let* name := getString D offset in
  let* prefixOffset := indexOf 47 name in
  Ok (py_slice name (prefixOffset + 1) (zlen name)).

(** ICUDataFile.py:86-88 *)
Definition getDataOffset (D : icuData) (name : str) : res Z := dict_get (dataOffsets D) name.
(** ICUDataFile.py:90-92 *)
Definition getData (D : icuData) (startOffset limitOffset : Z) : bytes := py_slice (fileData D) startOffset limitOffset.
(** ICUDataFile.py:94-99 *)
Definition getDataOffsetAndHeader (D : icuData) (name : str) : res (Z * dataHeader) :=
  let* dataOffset := dict_get (dataOffsets D) name in
  let* header := unpackHeader (py_slice (fileData D) dataOffset (dataOffset + dataHeaderLength)) in
  Ok (dataOffset, header).

(** ICUDataFile.py:121-127: the loop; the data is returned also when there is an exception *)
Fixpoint tocLoop (n : nat) (D : icuData) (hl tocEntryStart tocEntryLimit : Z) : icuData * res unit :=
  match n with
  | O => (D, Ok tt)
  | S m =>
      match unpack 4 2 (py_slice (fileData D) tocEntryStart tocEntryLimit) with
      | Ok [nameOffset; dataOffset] =>
          match getName D (nameOffset + hl) with
          | Ok name => tocLoop m (mkICU (fileData D) (dict_set (dataOffsets D) name (dataOffset + hl))) hl tocEntryLimit (tocEntryLimit + tocEntryLength)
          | Err e => (D, Err e)
          end
      | Ok _ => (D, Err StructError)
      | Err e => (D, Err e)
      end
  end.
(** ICUDataFile.py:101-127; [disk] is the contents of the data file *)
Definition populateData (D : icuData) (disk : bytes) : icuData * res unit :=
  match fileData D with
  | _ :: _ => (D, Ok tt)
  | [] =>
      let D1 := mkICU disk (dataOffsets D) in
      match unpackHeader (py_slice disk 0 dataHeaderLength) with
      | Err e => (D1, Err e)
      | Ok header =>
          let tocOffset := headerLength header in
          match unpack 4 1 (py_slice disk tocOffset (tocOffset + 4)) with
          | Ok [tocCount] =>
              let tocEntryStart := tocOffset + 4 in
              tocLoop (Z.to_nat tocCount) D1 (headerLength header) tocEntryStart (tocEntryStart + tocEntryLength)
          | Ok _ => (D1, Err StructError)
          | Err e => (D1, Err e)
          end
      end
  end.
