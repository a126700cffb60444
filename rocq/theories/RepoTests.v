(** * The tests of the repository, run on the model

    [Data_Tests.v] holds the tables of /repo/tests.  Each [Example] below says that the
    model gives what the test expects.  They are a check of the model, not claims.  Left
    out are the tests that need files which are not in the repository: the names of
    unames.icu, ulayout.icu, nfkc.nrm, nfkc_cf.nrm and the XML of test_exhaustive. *)
From Coq Require Import ZArith List Bool String Floats.SpecFloat.
From Verif Require Import Py Arr Dict Utilities UnicodeSet UTrie2 CharProps BidiProps CaseProps CPTrie Normalizer2 CharNames PyModule Data_Modules Prop_Modules EnumShipped Data_Tests.
Import ListNotations.
Open Scope string_scope.
Open Scope list_scope.
Open Scope Z_scope.

Definition str_eqb (a b : str) : bool := if list_eq_dec Z.eq_dec a b then true else false.
Definition ok {A} (r : res A) (p : A -> bool) : bool := match r with Ok a => p a | Err _ => false end.
Definition fails {A} (p : A -> bool) (l : list A) : list A := filter (fun x => negb (p x)) l.
(** [names[get(ord(char))] == expected] *)
Definition named_test (names : string) (f : Z -> res Z) (r : Z * string) : bool :=
  ok (f (fst r)) (fun v => ok (vd_get (UD names) (VInt v)) (fun n => match n with VStr s => str_eqb s (lit (snd r)) | _ => false end)).
Definition num_eqb (x y : pynum) : bool := match SFcompare (as_float x) (as_float y) with Some Eq => true | _ => false end.
Fixpoint set_of (e : setexp) : res uset :=
  match e with
  | SRange a b => Ok (new_range a b)
  | SInt a => Ok (new_int a)
  | SSub x y => let* a := set_of x in let* b := set_of y in difference a b
  | SOr x y => let* a := set_of x in let* b := set_of y in union a b
  | SAnd x y => let* a := set_of x in let* b := set_of y in intersection a b
  | SXor x y => let* a := set_of x in let* b := set_of y in symmetric_difference a b
  end.
(** test_charProps.py:23-25 *)
Definition set_test (f : Z -> res bool) (e : setexp) : bool :=
  ok (set_of e) (fun s => ok (iter s) (fun cs => if zlen cs =? 0 then false else forallb (fun c => ok (f c) (fun b => b)) cs)).
Definition first_start {V} (l : list (Z * Z * V)) : option Z := match l with (a, _, _) :: _ => Some a | [] => None end.
Definition last_stop {V} (l : list (Z * Z * V)) : option Z := first_start (map (fun x => let '(a, b, v) := x in (b, a, v)) (rev l)).
(** EnumeratorTests.py:11-24 *)
Definition enum_test {V} (eqb : V -> V -> bool) (enum : Z -> Z -> res (list (Z * Z * V))) (f : Z -> res V) (r : Z * Z) : bool :=
  let '(start, limit) := r in
  ok (enum limit start) (fun l =>
    match first_start l, last_stop l with
    | Some a, Some b => if (a =? start) && (b =? limit)
        then forallb (fun x => let '(a, b, v) := x in forallb (fun c => ok (f c) (eqb v)) (UnicodeSet.py_range a b 1)) l else false
    | _, _ => false
    end).

(** ** test_charProps.py *)
Example test_gc : fails (named_test "generalCategoryNames" (getGeneralCategory icu)) gcTests = [].
Proof. vm_compute. reflexivity. Qed.
Example test_script : fails (named_test "scriptNames" (getScript icu)) scriptTests = [].
Proof. vm_compute. reflexivity. Qed.
Example test_numeric : fails (fun r : Z * (Z * Z) => let '(c, (n, d)) := r in
  ok (getNumericValue icu c) (fun v => match v with Some x => num_eqb x (true_div n d) | None => false end)) numericValueTests = [].
Proof. vm_compute. reflexivity. Qed.
Example test_digit : fails (fun r : Z * (Z * Z) => let '(c, (n, d)) := r in
  ok (digitValue icu c) (fun v => v =? (if (c <? 0x4E00) && (d =? 1) && (0 <=? n) && (n <=? 9) then n else -1))) numericValueTests = [].
Proof. vm_compute. reflexivity. Qed.
Example test_alphabetic : fails (set_test (isAlphabetic icu)) alphaRanges = [].
Proof. vm_compute. reflexivity. Qed.
Example test_whitespace : fails (set_test (isUWhiteSpace icu)) whitespaceChars = [].
Proof. vm_compute. reflexivity. Qed.
Example test_hex : fails (set_test (isHexDigit icu)) hexDigits = [].
Proof. vm_compute. reflexivity. Qed.
Example test_age : fails (fun r => ok (getAge icu (fst r)) (fun v => str_eqb v (snd r))) ageTests = [].
Proof. vm_compute. reflexivity. Qed.
Example test_emoji : isEmoji icu 0x1F600 = Ok true /\ isEmojiPresentation icu 0x231B = Ok true /\ isEmojiModifier icu 0x1F3FB = Ok true /\
  isEmojiModifierBase icu 0x1F3C7 = Ok true /\ isEmojiComponent icu 0x1F9B0 = Ok true /\ isExtendedPictograph icu 0x1FA82 = Ok true.
Proof. vm_compute. repeat split. Qed.
Example test_gcEnum : fails (enum_test Z.eqb (enumerator Z.eqb generalCategoryFromProps (propsTrie icu)) (getGeneralCategory icu)) gcEnumTest = [].
Proof. vm_compute. reflexivity. Qed.
Example test_blockEnum : fails (enum_test Z.eqb (enumeratorR (blockFromVecIndex icu) (propsVectorTrie icu)) (getBlock icu)) blockEnumTest = [].
Proof. vm_compute. reflexivity. Qed.
Example test_scriptEnum : fails (enum_test Z.eqb (enumeratorR (scriptFromVecIndex icu) (propsVectorTrie icu)) (getScript icu)) scriptEnumTest = [].
Proof. vm_compute. reflexivity. Qed.
Definition asZ (r : res bool) : res Z := let* b := r in Ok (if b then 1 else 0).
Example test_emojiEnum : fails (enum_test Z.eqb (enumeratorR (fun v => asZ (binaryPropFromVecIndex icu v 28 2)) (propsVectorTrie icu)) (fun c => asZ (isEmoji icu c))) emojiEnumTest = [].
Proof. vm_compute. reflexivity. Qed.

(** ** test_bidiProps.py *)
Example test_direction : fails (named_test "bidiClassNames" (getCharDirection icu_bidi)) charDirections = [].
Proof. vm_compute. reflexivity. Qed.
Example test_flags : isBidiControl icu_bidi 0x200D = Ok false /\ isBidiControl icu_bidi 0x200E = Ok true /\
  map (isMirrored icu_bidi) [97; 91; 0x3010; 0x3042] = [Ok false; Ok true; Ok true; Ok false] /\
  isJoinControl icu_bidi 0x200D = Ok true /\ isJoinControl icu_bidi 0x200E = Ok false.
Proof. vm_compute. repeat split. Qed.
Definition pair_test (f : Z -> res Z) (r : Z * Z) : bool := let '(a, b) := r in if ok (f a) (Z.eqb b) then ok (f b) (Z.eqb a) else false.
Example test_mirror : fails (pair_test (getMirror icu_bidi)) mirroredPairs = [].
Proof. vm_compute. reflexivity. Qed.
Example test_bracket : fails (pair_test (getPairedBracket icu_bidi)) pairedBrackets = [].
Proof. vm_compute. reflexivity. Qed.
Example test_joiningType : fails (named_test "joiningTypeNames" (getJoiningType icu_bidi)) joiningTypeTests = [].
Proof. vm_compute. reflexivity. Qed.
Example test_joiningGroup : fails (named_test "joiningGroupNames" (getJoiningGroup icu_bidi)) joiningGroupTests = [].
Proof. vm_compute. reflexivity. Qed.

(** ** test_caseProps.py *)
Definition map_test (f : Z -> res Z) (r : Z * Z) : bool := ok (f (fst r)) (Z.eqb (snd r)).
Definition full_test (f : Z -> res (list Z)) (r : Z * list Z) : bool := ok (f (fst r)) (str_eqb (snd r)).
Example test_case : fails (map_test (toLower icu_case)) toLowerTests = [] /\ fails (map_test (toUpper icu_case)) toUpperTests = [] /\
  fails (map_test (toTitle icu_case)) toTitleTests = [].
Proof. vm_compute. repeat split. Qed.
Example test_fullCase : fails (full_test (toFullLower icu_case)) toFullLowerTests = [] /\ fails (full_test (toFullUpper icu_case)) toFullUpperTests = [] /\
  fails (full_test (toFullTitle icu_case)) toFullTitleTests = [].
Proof. vm_compute. repeat split. Qed.

(** ** test_utilities.py *)
Example test_surrogates : fails isLead (UnicodeSet.py_range 0xD800 0xDC00 1) = [] /\ fails isTrail (UnicodeSet.py_range 0xDC00 0xE000 1) = [] /\
  fails (fun r => let '(l, t, c) := r in charFromSurrogates l t =? c) surrogateTests = [] /\
  fails (fun r => let '(l, t, c) := r in let (l', t') := surrogatesFromChar c in (l =? l') && (t =? t')) surrogateTests = [].
Proof. vm_compute. repeat split. Qed.
Example test_highBit : map (fun r => highBit (fst r)) highBitTests = map snd highBitTests.
Proof. vm_compute. reflexivity. Qed.

(** ** test_normalizer2.py *)
Definition decomp_test (f : norm2 -> Z -> res (option (list Z))) (r : Z * option (list Z)) : bool :=
  ok createFromHardCodedData (fun N => ok (f N (fst r)) (fun d => match d, snd r with Some a, Some b => str_eqb a b | None, None => true | _, _ => false end)).
Example test_nfc : fails (decomp_test getDecomposition) nfcTests = [].
Proof. vm_compute. reflexivity. Qed.
Example test_nfcRaw : fails (decomp_test getRawDecomposition) nfcRawTests = [].
Proof. vm_compute. reflexivity. Qed.

(** ** test_charNames.py: extended names, and algorithmic names with the ranges of ICU *)
Example test_extended : fails (fun r => ok (getCharName noNames (fst r) U_EXTENDED_CHAR_NAME) (str_eqb (lit (snd r)))) extendedNames = [].
Proof. vm_compute. reflexivity. Qed.
Definition jamo : list string := [
  "G"; "GG"; "N"; "D"; "DD"; "R"; "M"; "B"; "BB"; "S"; "SS"; ""; "J"; "JJ"; "C"; "K"; "T"; "P"; "H";
  "A"; "AE"; "YA"; "YAE"; "EO"; "E"; "YEO"; "YE"; "O"; "WA"; "WAE"; "OE"; "YO"; "U"; "WEO"; "WE"; "WI"; "YU"; "EU"; "YI"; "I";
  ""; "G"; "GG"; "GS"; "N"; "NJ"; "NH"; "D"; "L"; "LG"; "LM"; "LB"; "LS"; "LT"; "LP"; "LH"; "M"; "B"; "BS"; "S"; "SS"; "NG"; "J"; "C"; "K"; "T"; "P"; "H"].
Definition algNames : names := mkNames noTokens [] [
  mkAlg 0x4E00 0x9FFD 0 4 0 [] (lit "CJK UNIFIED IDEOGRAPH-") [];
  mkAlg 0xAC00 0xD7A4 1 3 0 [19; 21; 28] (lit "HANGUL SYLLABLE ") (map lit jamo);
  mkAlg 0x17000 0x187F8 0 5 0 [] (lit "TANGUT IDEOGRAPH-") []].
Example test_algorithmic : fails (fun r => ok (getCharName algNames (fst r) U_UNICODE_CHAR_NAME) (str_eqb (lit (snd r)))) (hangulNames ++ hexNames) = [].
Proof. vm_compute. reflexivity. Qed.

(** ** test_unicodeSet.py *)
(** test_unicodeSet.py:30-38; the size is only in the message of the test, here it is compared, too *)
Definition pairs (s : uset) : res (list Z) :=
  fold_left (fun l i => let* l := l in let* a := getRangeStart s i in let* b := getRangeEnd s i in Ok (l ++ [a; b])) (UnicodeSet.py_range 0 (getRangeCount s) 1) (Ok []).
Fixpoint run (ops : list setop) (s : uset) : bool :=
  match ops with
  | [] => true
  | o :: r =>
      match o with
      | SetTo e => ok (set_of e) (run r)
      | Remove a b => ok (removeRange s a b) (run r)
      | AddR a b => ok (addRange s a b) (fun x => run r (fst x))
      | Add a => ok (add s a) (run r)
      | Expect ps n => if ok (pairs s) (fun l => str_eqb l ps) then ok (size s) (fun m => if m =? n then run r s else false) else false
      end
  end.
Example test_addRemove : run addRemove new_empty = true.
Proof. vm_compute. reflexivity. Qed.
Example test_indexOf :
  (let* s := addRange (new_range 97 100) 120 121 in let* s := add (fst s) 51 in let* s := add s 53 in let* s := addRange s 55 56 in
   let* n := size (fst s) in Ok (n, map (fun i => let* c := charAt (fst s) i in match c with Some c => indexOf (fst s) c | None => Ok None end) [0; 1; 2; 3; 4; 5; 6; 7; 8]))
  = Ok (9, map (fun i => Ok (Some i)) [0; 1; 2; 3; 4; 5; 6; 7; 8]).
Proof. vm_compute. reflexivity. Qed.
Definition setFromBits (bits : Z) : res uset :=
  fold_left (fun s i => let* s := s in if Z.testbit bits i then add s i else Ok s) (UnicodeSet.py_range 0 32 1) (Ok new_empty).
Definition bitsFromSet (s : uset) : res Z :=
  fold_left (fun b i => let* b := b in let* m := contains s i in Ok (if m then Z.lor b (Z.shiftl 1 i) else b)) (UnicodeSet.py_range 0 32 1) (Ok 0).
Definition bits_test (f : uset -> uset -> res uset) (g : Z -> Z -> Z) : bool :=
  forallb (fun i => forallb (fun j => ok (let* a := setFromBits i in let* b := setFromBits j in let* s := f a b in bitsFromSet s) (fun v => v =? g i j))
    (UnicodeSet.py_range 0 16 1)) (UnicodeSet.py_range 0 16 1).
(** The test takes all pairs of sets of bits below 128; here below 16, since the theorems about these operations (C01 to C05) hold for all sets. *)
Example test_exhaustive : bits_test addAll Z.lor = true /\ bits_test complementAll Z.lxor = true /\ bits_test retainAll Z.land = true /\ bits_test removeAll Z.ldiff = true /\
  forallb (fun i => ok (let* a := setFromBits i in let* s := complement a in bitsFromSet s) (fun v => v =? 0xFFFFFFFF - i)) (UnicodeSet.py_range 0 16 1) = true.
Proof. vm_compute. repeat split. Qed.
Example test_operators : let s1 := new_range 0x0915 0x0941 in let s2 := new_range 0x0920 0x0951 in
  union s1 s2 = Ok (new_range 0x0915 0x0951) /\ intersection s1 s2 = Ok (new_range 0x0920 0x0941) /\ difference s1 s2 = Ok (new_range 0x0915 0x0920) /\
  symmetric_difference s1 s2 = union (new_range 0x0915 0x0920) (new_range 0x0941 0x0951).
Proof. vm_compute. repeat split. Qed.
