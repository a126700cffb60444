(** * module_builder/ModuleBuilder.py: [build], module_builder/ModuleInstaller.py: [install] *)
From Coq Require Import ZArith List Bool Lia String.
From Verif Require Import Py Dict PyStr Utilities CharNames PyText ModuleBuilder HeaderFile BuilderArgs CsvReader.
Import ListNotations.
Open Scope string_scope.
Open Scope list_scope.
Open Scope Z_scope.
Local Notation length := List.length.
Local Notation concat := List.concat.

(** ** Paths, as pathlib has them: the parts; an absolute path begins with the part [/] *)
Definition path := list str.
Definition path_eqb (p q : path) : bool := if list_eq_dec (list_eq_dec Z.eq_dec) p q then true else false.
Definition ROOT : str := [47].
(** [Path(s)]: empty parts and [.] are dropped, [..] is kept.  A path that begins with exactly two
    slashes is taken like one with one. *)
Definition parsePath (s : str) : path :=
  let parts := filter (fun p => negb (str_eqb p []) && negb (str_eqb p (lit "."))) (py_split s 47) in
  match s with c :: _ => if c =? 47 then ROOT :: parts else parts | [] => parts end.
(** [p / s] for a relative [s] *)
Definition joinPath (p : path) (s : str) : path := p ++ parsePath s.
(** [p.name], for a path that is not a root *)
Definition pathName (p : path) : str := last p [].
(** [p.parent] *)
Definition parent (p : path) : path := match p with [r] => if str_eqb r ROOT then p else [] | _ => removelast p end.

(** ** Files

    The contents of the files are texts; a binary file is the list of its bytes.  There are no
    links, and all files can be read and written.  An absolute path is the list of the names
    below the root. *)
Record fs := mkFs { files : list (path * str); dirs : list path }.
Fixpoint findFile (l : list (path * str)) (p : path) : option str :=
  match l with [] => None | (q, c) :: r => if path_eqb q p then Some c else findFile r p end.
Definition lookup (f : fs) (p : path) : option str := findFile (files f) p.
Fixpoint prefix (p q : path) : bool :=
  match p with [] => true | x :: p => match q with [] => false | y :: q => str_eqb x y && prefix p q end end.
(** a directory is listed, or is above one that is listed or above a file *)
Definition isDir (f : fs) (p : path) : bool :=
  match p with
  | [] => true
  | _ => existsb (prefix p) (dirs f) || existsb (fun '(q, _) => prefix p q && negb (path_eqb p q)) (files f)
  end.
(** the path leads through or to a file *)
Definition throughFile (f : fs) (p : path) : bool := existsb (fun '(q, _) => prefix q p) (files f).
Fixpoint setFile (l : list (path * str)) (p : path) (c : str) : list (path * str) :=
  match l with [] => [(p, c)] | (q, d) :: r => if path_eqb q p then (q, c) :: r else (q, d) :: setFile r p c end.

(** ** Commands: they may change the files and then fail *)
Definition M (A : Type) : Type := fs -> res A * fs.
Definition ret {A} (x : A) : M A := fun f => (Ok x, f).
Definition andThen {A B} (c : M A) (k : A -> M B) : M B := fun f => match c f with (Ok x, g) => k x g | (Err e, g) => (Err e, g) end.
Definition lift {A} (x : res A) : M A := fun f => (x, f).
Notation "'let!' x := c 'in' k" := (andThen c (fun x => k)) (at level 200, x pattern, k at level 200).

Section Files.
  (** the working directory *)
  Variable cwd : path.
  (** how the system follows a path *)
  Fixpoint walk (dir : path) (parts : path) : path :=
    match parts with [] => dir | x :: r => walk (if str_eqb x (lit "..") then removelast dir else dir ++ [x]) r end.
  Definition resolve (p : path) : path := match p with x :: r => if str_eqb x ROOT then walk [] r else walk cwd p | [] => cwd end.

  (** [open(p, "rb").read()] *)
  Definition readRaw (p : path) : M str := fun f =>
    (match lookup f (resolve p) with
     | Some c => Ok c
     | None => if isDir f (resolve p) || throughFile f (resolve p) then Err OSError else Err FileNotFoundError
     end, f).
  (** text mode translates the ends of lines *)
  Fixpoint universal (s : str) : str :=
    match s with
    | [] => []
    | c :: r => if c =? 13 then 10 :: match r with d :: r' => if d =? 10 then universal r' else universal r | [] => [] end else c :: universal r
    end.
  (** [open(p).read()]; the text is taken as decoded *)
  Definition readText (p : path) : M str := let! c := readRaw p in ret (universal c).
  Definition writeAt (q : path) (c : str) : M unit := fun f =>
    if isDir f q then (Err OSError, f)
    else if isDir f (removelast q) then (Ok tt, mkFs (setFile (files f) q c) (dirs f))
    else (if throughFile f (removelast q) then Err OSError else Err FileNotFoundError, f).
  (** [open(p, "w").write(c)] *)
  Definition write (p : path) (c : str) : M unit := writeAt (resolve p) c.
  (** [os.makedirs(p, exist_ok=True)] *)
  Definition makedirs (p : path) : M unit := fun f =>
    if throughFile f (resolve p) then (Err OSError, f) else (Ok tt, mkFs (files f) (resolve p :: dirs f)).
  (** [shutil.copy(src, dst)] and [shutil.copy2(src, dst)], without the modes and times *)
  Definition copy (src dst : path) : M unit :=
    let! c := readRaw src in fun f =>
    let q := if isDir f (resolve dst) then resolve dst ++ [pathName src] else resolve dst in
    if path_eqb (resolve src) q then (Err OSError, f) else writeAt q c f.

  (** ** build *)
  (** the date and time in the first lines of the module of this name *)
  Variable now : str -> str.
  (** the [eval] of HeaderFile.translate *)
  Variable pyeval : str -> dict Z -> res Z.

  (** ModuleBuilder.py:100-108; HeaderToPtyhon.py:32-44; UCDReader.py:138-149 *)
  Definition heading (tool outName fromName : str) : list str :=
    [[34; 34; 34] ++ lit "/"; outName ++ lit ", based on " ++ fromName ++ lit " from ICU" ++ [10];
     lit "Generated by " ++ tool ++ lit " on " ++ now outName; [34; 34; 34; 10]].
  (** what [build] asks of a ModuleBuilder *)
  Inductive part := Array (name : str) | Scalar (name : str) | PropsTrie (name prefix : str) | Trie (name prefix : str).
  Definition partLines (source : str) (p : part) : res (list str) :=
    match p with
    | Array name => let* l := arrayToPython source name in Ok [l]
    | Scalar name => let* l := scalarToPython source name in Ok [l]
    | PropsTrie name prefix => trieValuesFromPropsDeclaration source name prefix
    | Trie name prefix => trieValuesFromTrieDeclaration source name prefix
    end.
  Fixpoint partsLines (source : str) (ps : list part) : res (list str) :=
    match ps with [] => Ok [] | p :: r => let* l := partLines source p in let* ls := partsLines source r in Ok (l ++ ls) end.
  (** ModuleBuilder.py:91-108, the calls of [build], 158-162 *)
  Definition buildModule (icuDirectory : path) (cSourcePath : str) (outDirectory : path) (moduleName : str) (ps : list part) : M unit :=
    let sourcePath := joinPath icuDirectory cSourcePath in
    let! _ := makedirs outDirectory in
    let! source := readText sourcePath in
    let! lines := lift (partsLines source ps) in
    write (joinPath outDirectory moduleName) (join [10] (heading (lit "ModuleBuilder.py") moduleName (pathName sourcePath) ++ lines)).
  (** HeaderToPtyhon.py:38-39 *)
  Definition headerName (fromName : str) : str := lower (py_replace fromName 46 (lit "_")).
  (** The lines that [readline()] gives, one after the other (HeaderToPtyhon.py:69): each with
      its end of line, and the last perhaps without.  [cur] is the line so far. *)
  Fixpoint linesAfter (s cur : str) : list str :=
    match s with
    | [] => match cur with [] => [] | _ => [cur] end
    | c :: r => if c =? 10 then (cur ++ [c]) :: linesAfter r [] else linesAfter r (cur ++ [c])
    end.
  Definition textLines (s : str) : list str := linesAfter s [].
  (** HeaderToPtyhon.py:25-49, the calls of [build], 154-158 *)
  Definition buildHeader (icuDirectory : path) (cSourcePath : str) (outDirectory : path) (extraCode ignore : list str) : M unit :=
    let sourcePath := joinPath icuDirectory cSourcePath in
    let! _ := makedirs outDirectory in
    let! source := readText sourcePath in
    let fromName := pathName sourcePath in
    let outputName := headerName fromName ++ lit ".py" in
    let! lines := lift (translate (upper (headerName fromName)) pyeval ignore (textLines source)) in
    write (joinPath outDirectory outputName) (join [10] (heading (lit "HeaderToPtyhon.py") outputName fromName ++ extraCode ++ lines)).
  (** ModuleBuilder.py:235: [#define U_ICU_VERSION "([0-9.]+)"] *)
  Definition quotedMatch (before : str) (ok : Z -> bool) (s : str) : option str :=
    if starts before s then
      let '(v, r) := span ok (skipn (length before) s) in
      match v, r with _ :: _, c :: _ => if c =? 34 then Some v else None | _, _ => None end
    else None.
  Definition digit (c : Z) : bool := (48 <=? c) && (c <=? 57).
  Definition icuVersionOf (uvData : str) : res str := findFirst (quotedMatch (lit "#define U_ICU_VERSION """) (fun c => digit c || (c =? 46))) uvData.
  (** ModuleBuilder.py:236: [#define U_ICU_VERSION_SHORT "([0-9]+)"] *)
  Definition icuVersionShortOf (uvData : str) : res str := findFirst (quotedMatch (lit "#define U_ICU_VERSION_SHORT """) digit) uvData.
  (** UCDReader.py:136-194; the rows are read before they are used, so an error in the file comes
      before one in a row *)
  Definition buildUCD (icuDirectory outDirectory : path) : M (option str) :=
    let outPath := joinPath outDirectory (lit "UCDTypeDictionaries.py") in
    let ppucdPath := joinPath icuDirectory (lit "data/unidata/ppucd.txt") in
    let prefixLines := heading (lit "UCDReader.py") (pathName outPath) (pathName ppucdPath) ++ [lit "from .uchar_h import *"; lit "from .uscript_h import *" ++ [10]] in
    let! text := readRaw ppucdPath in
    let! rows := lift (csvRows text) in
    let! (ucdVersion, lines) := lift (generateDictionaries rows) in
    let! contents := lift (writeFile prefixLines lines) in
    let! _ := write outPath contents in
    ret ucdVersion.
  (** ModuleBuilder.py:253-255; None is written as such *)
  Definition versionText (v : option str) : str := lit "unicodeVersion = """ ++ match v with Some s => s | None => lit "None" end ++ [34; 10].

  Definition bidiParts : list part :=
    [Array (lit "ubidi_props_indexes"); Array (lit "ubidi_props_trieIndex"); Array (lit "ubidi_props_mirrors"); Array (lit "ubidi_props_jgArray");
     Array (lit "ubidi_props_jgArray2"); PropsTrie (lit "ubidi_props_singleton") (lit "ubidi_props_trie")].
  Definition charParts : list part :=
    [Array (lit "propsTrie_index"); Trie (lit "propsTrie") (lit "propsTrie"); Array (lit "propsVectorsTrie_index"); Trie (lit "propsVectorsTrie") (lit "propsVectorsTrie");
     Array (lit "propsVectors"); Scalar (lit "propsVectorsColumns"); Array (lit "scriptExtensions")].
  Definition caseParts : list part :=
    [Array (lit "ucase_props_indexes"); Array (lit "ucase_props_trieIndex"); Array (lit "ucase_props_exceptions"); Array (lit "ucase_props_unfold");
     PropsTrie (lit "ucase_props_singleton") (lit "ucase_props_trie")].
  Definition maskCode : list str := [lit "def U_MASK(x: int) -> int: return 1<<x" ++ [10]].
  (** ModuleBuilder.py:185-255, after the arguments; the result is what is printed *)
  Definition build (a : args) : M (str * str) :=
    let icuSource := parsePath (icuSourceDir a) in
    let icuBuild := parsePath (icuBuildDir a) in
    let outDir := parsePath (outputDir a) in
    let! _ := buildModule icuSource (lit "common/ubidi_props_data.h") outDir (lit "BidiPropsData.py") bidiParts in
    let! _ := buildModule icuSource (lit "common/uchar_props_data.h") outDir (lit "CharPropsData.py") charParts in
    let! _ := buildModule icuSource (lit "common/ucase_props_data.h") outDir (lit "CasePropsData.py") caseParts in
    let! _ := buildHeader icuSource (lit "common/uprops.h") outDir [] [] in
    let! _ := buildHeader icuSource (lit "common/ucase.h") outDir [] [lit "UCASECONTEXT_INITIALIZER"] in
    let! _ := buildHeader icuSource (lit "common/unicode/uchar.h") outDir maskCode [lit "U_NO_NUMERIC_VALUE"] in
    let! _ := buildHeader icuSource (lit "common/unicode/uscript.h") outDir [] [] in
    let! uvData := readText (joinPath icuSource (lit "common/unicode/uvernum.h")) in
    let! icuVersion := lift (icuVersionOf uvData) in
    let! icuVersionShort := lift (icuVersionShortOf uvData) in
    let! _ := copy (joinPath icuBuild (lit "data/out/icudt" ++ icuVersionShort ++ lit "l.dat")) (joinPath outDir (lit "icudata.dat")) in
    let! _ := copy (joinPath (parent icuSource) (lit "LICENSE")) outDir in
    let! ucdVersion := buildUCD icuSource outDir in
    let! _ := write (joinPath outDir (lit "UnicodeVersion.py")) (versionText ucdVersion) in
    ret (icuVersion, icuVersionShort).

  (** ** install *)
  (** the names in a directory *)
  Definition below (d p : path) : list str := if prefix d p then match skipn (length d) p with n :: _ => [n] | [] => [] end else [].
  Fixpoint nodupStr (l : list str) : list str := match l with [] => [] | x :: r => if existsb (str_eqb x) r then nodupStr r else x :: nodupStr r end.
  Definition children (f : fs) (d : path) : list str := nodupStr (flat_map (fun '(q, _) => below d q) (files f) ++ flat_map (below d) (dirs f)).
  (** [p.glob("*.py")]; the order is that of the file system *)
  Definition globPy (p : path) : M (list path) := fun f => (Ok (map (fun n => p ++ [n]) (filter (ends (lit ".py")) (children f (resolve p)))), f).
  Fixpoint copyAll (ps : list path) (dst : path) : M unit :=
    match ps with [] => ret tt | p :: r => let! _ := copy p dst in copyAll r dst end.
  (** ModuleInstaller.py:13-21 *)
  Definition install (arg : str) : M unit :=
    let sourcePath := parsePath arg in
    let destPath := parsePath (lit "UnicodeData") in
    let! pythonFiles := globPy sourcePath in
    let! _ := copyAll pythonFiles destPath in
    let! _ := copy (joinPath sourcePath (lit "icudata.dat")) (joinPath destPath (lit "Data")) in
    copy (joinPath sourcePath (lit "LICENSE")) (joinPath destPath (lit "Data")).
End Files.
