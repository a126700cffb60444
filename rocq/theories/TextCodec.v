(** * Text files: the codecs of [open(path)] and [open(path, "w")], and [build] on files of bytes *)
From Coq Require Import ZArith List Bool Lia String.
From Verif Require Import Py Dict PyStr Utilities CharNames PyText ModuleBuilder HeaderFile BuilderArgs CsvReader Build.
Import ListNotations.
Open Scope string_scope.
Open Scope list_scope.
Open Scope Z_scope.
Local Notation length := List.length.
Local Notation concat := List.concat.

(** ** Codecs with strict errors: None is UnicodeEncodeError or UnicodeDecodeError *)
Record codec := mkCodec { enc : str -> option (list Z); dec : list Z -> option str }.

(** what has been decoded so far, before the rest *)
Definition andRest (c : Z) (r : option str) : option str := match r with Some s => Some (c :: s) | None => None end.
(** a byte from [lo] to [hi]: a continuation *)
Definition tail (lo hi b : Z) : bool := (lo <=? b) && (b <=? hi).
(** CPython's [utf8_decode] (Objects/stringlib/codecs.h): the second byte is restricted after
    E0, ED, F0 and F4; the restrictions rule out overlong forms, surrogates and what is above
    0x10FFFF *)
Fixpoint utf8Dec (bs : list Z) : option str :=
  match bs with
  | [] => Some []
  | a :: r =>
    if a <? 0x80 then andRest a (utf8Dec r)
    else if a <? 0xC2 then None
    else if a <? 0xE0 then
      match r with
      | b :: r => if tail 0x80 0xBF b then andRest (Z.shiftl a 6 + b - 0x3080) (utf8Dec r) else None
      | _ => None
      end
    else if a <? 0xF0 then
      match r with
      | b :: c :: r =>
        if tail (if a =? 0xE0 then 0xA0 else 0x80) (if a =? 0xED then 0x9F else 0xBF) b && tail 0x80 0xBF c
        then andRest (Z.shiftl a 12 + Z.shiftl b 6 + c - 0xE2080) (utf8Dec r) else None
      | _ => None
      end
    else if a <? 0xF5 then
      match r with
      | b :: c :: d :: r =>
        if tail (if a =? 0xF0 then 0x90 else 0x80) (if a =? 0xF4 then 0x8F else 0xBF) b && tail 0x80 0xBF c && tail 0x80 0xBF d
        then andRest (Z.shiftl a 18 + Z.shiftl b 12 + Z.shiftl c 6 + d - 0x3C82080) (utf8Dec r) else None
      | _ => None
      end
    else None
  end.
(** CPython's [utf8_encoder]: surrogates cannot be encoded.  There is nothing above 0x10FFFF in a [str]; here
    it cannot be encoded either. *)
Definition utf8Bytes (c : Z) : option (list Z) :=
  if c <? 0x80 then Some [c]
  else if c <? 0x800 then Some [Z.lor 0xC0 (Z.shiftr c 6); Z.lor 0x80 (Z.land c 0x3F)]
  else if c <? 0x10000 then
    if (0xD800 <=? c) && (c <=? 0xDFFF) then None
    else Some [Z.lor 0xE0 (Z.shiftr c 12); Z.lor 0x80 (Z.land (Z.shiftr c 6) 0x3F); Z.lor 0x80 (Z.land c 0x3F)]
  else if 0x10FFFF <? c then None
  else Some [Z.lor 0xF0 (Z.shiftr c 18); Z.lor 0x80 (Z.land (Z.shiftr c 12) 0x3F); Z.lor 0x80 (Z.land (Z.shiftr c 6) 0x3F); Z.lor 0x80 (Z.land c 0x3F)].
Fixpoint encAll (f : Z -> option (list Z)) (s : str) : option (list Z) :=
  match s with
  | [] => Some []
  | c :: r => match f c with Some b => match encAll f r with Some bs => Some (b ++ bs) | None => None end | None => None end
  end.
Definition UTF8 : codec := mkCodec (encAll utf8Bytes) utf8Dec.
(** ISO 8859-1 and ASCII: a byte is a character below [n] *)
Definition single (n : Z) : codec := mkCodec (encAll (fun c => if c <? n then Some [c] else None)) (encAll (fun b => if b <? n then Some [b] else None)).
Definition LATIN1 : codec := single 0x100.
Definition ASCII : codec := single 0x80.

(** ** Commands on files of bytes

    The files of [fs] are lists of bytes here.  A command may also fail in a codec. *)
Inductive fault := Raised (e : exn) | UnicodeDecodeError | UnicodeEncodeError.
Definition MB (A : Type) : Type := fs -> (A + fault) * fs.
Definition retB {A} (x : A) : MB A := fun f => (inl x, f).
Definition andThenB {A B} (c : MB A) (k : A -> MB B) : MB B := fun f => match c f with (inl x, g) => k x g | (inr e, g) => (inr e, g) end.
(** a command that handles bytes only *)
Definition outcome {A} (r : res A) : A + fault := match r with Ok x => inl x | Err e => inr (Raised e) end.
Definition raw {A} (c : M A) : MB A := fun f => let '(r, g) := c f in (outcome r, g).
Notation "'let?' x := c 'in' k" := (andThenB c (fun x => k)) (at level 200, x pattern, k at level 200).

Section Bytes.
  Variable cwd : path.
  (** the encoding of the locale *)
  Variable C : codec.
  Variable now : str -> str.
  Variable pyeval : str -> dict Z -> res Z.

  Definition decoded (b : list Z) : MB str := fun f => (match dec C b with Some s => inl s | None => inr UnicodeDecodeError end, f).
  (** [open(p, newline="").read()].  The file is read as a whole before the text is used; [readline]
      and the csv reader read blocks, so there an error in an earlier line can come first. *)
  Definition readDec (p : path) : MB str := let? b := raw (readRaw cwd p) in decoded b.
  (** [open(p).read()] *)
  Definition readTextB (p : path) : MB str := let? s := readDec p in retB (universal s).
  (** [open(p, "w").write(s)]: the file is emptied before the text is encoded.  For UCDReader.writeFile,
      which writes in pieces, what is in the file after an error is simplified to nothing. *)
  Definition writeB (p : path) (s : str) : MB unit :=
    match enc C s with
    | Some b => raw (write cwd p b)
    | None => let? _ := raw (write cwd p []) in fun f => (inr UnicodeEncodeError, f)
    end.

  (** ModuleBuilder.py:91-108, the calls of [build], 158-162 *)
  Definition buildModuleB (icuDirectory : path) (cSourcePath : str) (outDirectory : path) (moduleName : str) (ps : list part) : MB unit :=
    let sourcePath := joinPath icuDirectory cSourcePath in
    let? _ := raw (makedirs cwd outDirectory) in
    let? source := readTextB sourcePath in
    let? lines := raw (lift (partsLines source ps)) in
    writeB (joinPath outDirectory moduleName) (join [10] (heading now (lit "ModuleBuilder.py") moduleName (pathName sourcePath) ++ lines)).
  (** HeaderToPtyhon.py:25-49, the calls of [build], 154-158 *)
  Definition buildHeaderB (icuDirectory : path) (cSourcePath : str) (outDirectory : path) (extraCode ignore : list str) : MB unit :=
    let sourcePath := joinPath icuDirectory cSourcePath in
    let? _ := raw (makedirs cwd outDirectory) in
    let? source := readTextB sourcePath in
    let fromName := pathName sourcePath in
    let outputName := headerName fromName ++ lit ".py" in
    let? lines := raw (lift (translate (upper (headerName fromName)) pyeval ignore (textLines source))) in
    writeB (joinPath outDirectory outputName) (join [10] (heading now (lit "HeaderToPtyhon.py") outputName fromName ++ extraCode ++ lines)).
  (** UCDReader.py:136-194 *)
  Definition buildUCDB (icuDirectory outDirectory : path) : MB (option str) :=
    let outPath := joinPath outDirectory (lit "UCDTypeDictionaries.py") in
    let ppucdPath := joinPath icuDirectory (lit "data/unidata/ppucd.txt") in
    let prefixLines := heading now (lit "UCDReader.py") (pathName outPath) (pathName ppucdPath) ++ [lit "from .uchar_h import *"; lit "from .uscript_h import *" ++ [10]] in
    let? text := readDec ppucdPath in
    let? rows := raw (lift (csvRows text)) in
    let? (ucdVersion, lines) := raw (lift (generateDictionaries rows)) in
    let? contents := raw (lift (writeFile prefixLines lines)) in
    let? _ := writeB outPath contents in
    retB ucdVersion.
  (** ModuleBuilder.py:185-255 *)
  Definition buildB (a : args) : MB (str * str) :=
    let icuSource := parsePath (icuSourceDir a) in
    let icuBuild := parsePath (icuBuildDir a) in
    let outDir := parsePath (outputDir a) in
    let? _ := buildModuleB icuSource (lit "common/ubidi_props_data.h") outDir (lit "BidiPropsData.py") bidiParts in
    let? _ := buildModuleB icuSource (lit "common/uchar_props_data.h") outDir (lit "CharPropsData.py") charParts in
    let? _ := buildModuleB icuSource (lit "common/ucase_props_data.h") outDir (lit "CasePropsData.py") caseParts in
    let? _ := buildHeaderB icuSource (lit "common/uprops.h") outDir [] [] in
    let? _ := buildHeaderB icuSource (lit "common/ucase.h") outDir [] [lit "UCASECONTEXT_INITIALIZER"] in
    let? _ := buildHeaderB icuSource (lit "common/unicode/uchar.h") outDir maskCode [lit "U_NO_NUMERIC_VALUE"] in
    let? _ := buildHeaderB icuSource (lit "common/unicode/uscript.h") outDir [] [] in
    let? uvData := readTextB (joinPath icuSource (lit "common/unicode/uvernum.h")) in
    let? icuVersion := raw (lift (icuVersionOf uvData)) in
    let? icuVersionShort := raw (lift (icuVersionShortOf uvData)) in
    let? _ := raw (copy cwd (joinPath icuBuild (lit "data/out/icudt" ++ icuVersionShort ++ lit "l.dat")) (joinPath outDir (lit "icudata.dat"))) in
    let? _ := raw (copy cwd (joinPath (parent icuSource) (lit "LICENSE")) outDir) in
    let? ucdVersion := buildUCDB icuSource outDir in
    let? _ := writeB (joinPath outDir (lit "UnicodeVersion.py")) (versionText ucdVersion) in
    retB (icuVersion, icuVersionShort).
End Bytes.
