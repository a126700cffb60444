(** * The expectations of /repo/tests, written by tools/gen_tests.py *)
From Coq Require Import ZArith List String.
Import ListNotations.
Open Scope string_scope.
Open Scope list_scope.
Open Scope Z_scope.

(** expressions of sets: UnicodeSet(range(a, b)), UnicodeSet(a), -, |, &, ^ *)
Inductive setexp := SRange (a b : Z) | SInt (a : Z) | SSub (x y : setexp) | SOr (x y : setexp) | SAnd (x y : setexp) | SXor (x y : setexp).
(** the statements of test_addRemove *)
Inductive setop := SetTo (x : setexp) | Remove (a b : Z) | AddR (a b : Z) | Add (a : Z) | Expect (pairs : list Z) (size : Z).

Definition gcTests : list (Z * string) := [
  (18, "Cc");
  (51, "Nd");
  (40, "Ps");
  (41, "Pe");
  (65, "Lu");
  (97, "Ll");
  (1604, "Lo");
  (2325, "Lo");
  (12304, "Ps");
  (12305, "Pe")].

Definition scriptTests : list (Z * string) := [
  (65, "Latn");
  (193, "Latn");
  (913, "Grek");
  (1040, "Cyrl");
  (1604, "Arab");
  (2325, "Deva");
  (1157, "Zinh");
  (125184, "Adlm")].

Definition numericValueTests : list (Z * (Z * Z)) := [
  (48, (0, 1));
  (49, (1, 1));
  (50, (2, 1));
  (51, (3, 1));
  (52, (4, 1));
  (53, (5, 1));
  (54, (6, 1));
  (55, (7, 1));
  (56, (8, 1));
  (57, (9, 1));
  (188, (1, 4));
  (189, (1, 2));
  (190, (3, 4));
  (1632, (0, 1));
  (1633, (1, 1));
  (1634, (2, 1));
  (1635, (3, 1));
  (1636, (4, 1));
  (1637, (5, 1));
  (1638, (6, 1));
  (1639, (7, 1));
  (1640, (8, 1));
  (1641, (9, 1));
  (2406, (0, 1));
  (2407, (1, 1));
  (2408, (2, 1));
  (2409, (3, 1));
  (2410, (4, 1));
  (2411, (5, 1));
  (2412, (6, 1));
  (2413, (7, 1));
  (2414, (8, 1));
  (2415, (9, 1));
  (2548, (1, 16));
  (2549, (1, 8));
  (2550, (3, 16));
  (2551, (1, 4));
  (2552, (3, 4));
  (2553, (16, 1));
  (3046, (0, 1));
  (3047, (1, 1));
  (3048, (2, 1));
  (3049, (3, 1));
  (3050, (4, 1));
  (3051, (5, 1));
  (3052, (6, 1));
  (3053, (7, 1));
  (3054, (8, 1));
  (3055, (9, 1));
  (3056, (10, 1));
  (3057, (100, 1));
  (3058, (1000, 1));
  (19968, (1, 1));
  (20108, (2, 1));
  (19977, (3, 1));
  (22235, (4, 1));
  (20116, (5, 1));
  (20845, (6, 1));
  (19971, (7, 1));
  (20843, (8, 1));
  (20061, (9, 1));
  (21313, (10, 1));
  (30334, (100, 1));
  (21315, (1000, 1));
  (19975, (10000, 1));
  (20740, (100000000, 1));
  (126209, (1, 1));
  (126210, (2, 1));
  (126211, (3, 1));
  (126212, (4, 1));
  (126213, (5, 1));
  (126214, (6, 1));
  (126215, (7, 1));
  (126216, (8, 1));
  (126217, (9, 1));
  (126218, (10, 1));
  (126219, (20, 1));
  (126220, (30, 1));
  (126221, (40, 1));
  (126222, (50, 1));
  (126223, (60, 1));
  (126224, (70, 1));
  (126225, (80, 1));
  (126226, (90, 1));
  (126227, (100, 1));
  (126228, (200, 1));
  (126229, (300, 1));
  (126230, (400, 1));
  (126231, (500, 1));
  (126232, (600, 1));
  (126233, (700, 1));
  (126234, (800, 1));
  (126235, (900, 1));
  (126236, (1000, 1));
  (126237, (2000, 1));
  (126238, (3000, 1));
  (126239, (4000, 1));
  (126240, (5000, 1));
  (126241, (6000, 1));
  (126242, (7000, 1));
  (126243, (8000, 1));
  (126244, (9000, 1));
  (126245, (10000, 1));
  (126246, (20000, 1));
  (126247, (30000, 1));
  (126248, (40000, 1));
  (126249, (50000, 1));
  (126250, (60000, 1));
  (126251, (70000, 1));
  (126252, (80000, 1));
  (126253, (90000, 1))].

Definition alphaRanges : list setexp := [
  (SRange 65 91);
  (SRange 97 123);
  (SSub (SSub (SRange 913 1023) (SInt 930)) (SInt 1014));
  (SSub (SRange 1024 1279) (SRange 1154 1162));
  (SRange 1488 1514);
  (SOr (SOr (SOr (SOr (SRange 1568 1611) (SRange 1646 1648)) (SRange 1649 1748)) (SInt 1749)) (SRange 1786 1789));
  (SOr (SOr (SRange 2309 2362) (SRange 2392 2402)) (SRange 2418 2432));
  (SRange 12353 12439);
  (SRange 12449 12539);
  (SRange 12593 12687);
  (SRange 66176 66205);
  (SRange 125184 125251)].

Definition whitespaceChars : list setexp := [
  (SInt 32);
  (SInt 160);
  (SInt 5760);
  (SRange 8192 8203);
  (SInt 8239);
  (SInt 8287);
  (SInt 12288)].

Definition hexDigits : list setexp := [
  (SRange 48 58);
  (SRange 65 71);
  (SRange 97 103);
  (SRange 65296 65306);
  (SRange 65313 65319);
  (SRange 65345 65351)].

Definition ageTests : list (Z * list Z) := [
  (536, [3; 0; 0; 0]);
  (544, [3; 2; 0; 0]);
  (564, [4; 0; 0; 0]);
  (567, [4; 1; 0; 0]);
  (578, [5; 0; 0; 0])].

Definition gcEnumTest : list (Z * Z) := [
  (37, 53);
  (33, 126);
  (32, 128);
  (2304, 2432);
  (55296, 57344);
  (125184, 125252)].

Definition blockEnumTest : list (Z * Z) := [
  (768, 1024);
  (1024, 1344);
  (1488, 1536);
  (1536, 1792);
  (2304, 3584);
  (125184, 125280)].

Definition scriptEnumTest : list (Z * Z) := [
  (768, 1024);
  (1024, 1344);
  (1488, 1536);
  (1536, 1792);
  (2304, 3584);
  (2304, 3584);
  (125184, 125280)].

Definition emojiEnumTest : list (Z * Z) := [
  (128512, 128640)].

Definition charDirections : list (Z * string) := [
  (43, "ES");
  (44, "CS");
  (49, "EN");
  (97, "L");
  (1500, "R");
  (1604, "AL");
  (1639, "AN");
  (8204, "BN");
  (8205, "BN");
  (8206, "L");
  (8207, "R");
  (8232, "WS");
  (8233, "B");
  (8234, "LRE");
  (8235, "RLE");
  (8236, "PDF");
  (8237, "LRO");
  (8238, "RLO");
  (8239, "CS");
  (8294, "LRI");
  (8295, "RLI");
  (8296, "FSI");
  (8297, "PDI")].

Definition joiningTypeTests : list (Z * string) := [
  (97, "U");
  (1575, "R");
  (1600, "C");
  (1604, "D");
  (1611, "T");
  (68301, "L");
  (68307, "D")].

Definition joiningGroupTests : list (Z * string) := [
  (1604, "Lam");
  (68307, "Manichaean Lamedh")].

Definition mirroredPairs : list (Z * Z) := [
  (40, 41);
  (123, 125);
  (171, 187);
  (12304, 12305)].

Definition pairedBrackets : list (Z * Z) := [
  (40, 41);
  (91, 93);
  (123, 125);
  (12304, 12305)].

Definition toLowerTests : list (Z * Z) := [
  (65, 97);
  (97, 97);
  (304, 105);
  (305, 305)].

Definition toUpperTests : list (Z * Z) := [
  (65, 65);
  (97, 65);
  (107, 75);
  (223, 223);
  (304, 304);
  (305, 73);
  (329, 329);
  (1043, 1043);
  (1075, 1043);
  (1415, 1415);
  (7832, 7832)].

Definition toTitleTests : list (Z * Z) := [
  (65, 65);
  (97, 65);
  (107, 75);
  (223, 223);
  (304, 304);
  (305, 73);
  (329, 329);
  (1043, 1043);
  (1075, 1043);
  (1415, 1415);
  (7832, 7832)].

Definition toFullLowerTests : list (Z * list Z) := [
  (65, [97]);
  (97, [97]);
  (304, [105; 775]);
  (305, [305])].

Definition toFullUpperTests : list (Z * list Z) := [
  (65, [65]);
  (97, [65]);
  (107, [75]);
  (223, [83; 83]);
  (304, [304]);
  (305, [73]);
  (329, [700; 78]);
  (1043, [1043]);
  (1075, [1043]);
  (1415, [1333; 1362]);
  (7832, [87; 778])].

Definition toFullTitleTests : list (Z * list Z) := [
  (65, [65]);
  (97, [65]);
  (107, [75]);
  (223, [83; 115]);
  (304, [304]);
  (305, [73]);
  (329, [700; 78]);
  (1043, [1043]);
  (1075, [1043]);
  (1415, [1333; 1410]);
  (7832, [87; 778])].

Definition highBitTests : list (Z * option Z) := [
  (0, None);
  (2, Some 1);
  (4, Some 2);
  (6, Some 2);
  (8, Some 3);
  (10, Some 3);
  (12, Some 3);
  (14, Some 3);
  (16, Some 4);
  (1023, Some 9);
  (4294966272, Some 31);
  (8589934592, Some 33);
  (81985529216486895, Some 56)].

Definition surrogateTests : list (Z * Z * Z) := [
  (55296, 56320, 65536);
  (55357, 56832, 128512);
  (55376, 57070, 148206);
  (56319, 57343, 1114111)].

Definition nfcTests : list (Z * option (list Z)) := [
  (65, None);
  (97, None);
  (160, None);
  (168, None);
  (173, None);
  (190, None);
  (192, Some [65; 768]);
  (224, Some [97; 768]);
  (376, Some [89; 776]);
  (7846, Some [65; 770; 768]);
  (13063, None);
  (25961, None);
  (51853, Some [4365; 4455; 4528]);
  (64108, Some [148206])].

Definition nfcRawTests : list (Z * option (list Z)) := [
  (65, None);
  (97, None);
  (160, None);
  (168, None);
  (173, None);
  (190, None);
  (192, Some [65; 768]);
  (224, Some [97; 768]);
  (376, Some [89; 776]);
  (7846, Some [194; 768]);
  (13063, None);
  (25961, None);
  (51853, Some [51844; 4528]);
  (64108, Some [148206])].

Definition extendedNames : list (Z * string) := [
  (91, "<start punctuation-005B>");
  (175, "<modifier symbol-00AF>");
  (75, "<uppercase letter-004B>");
  (107, "<lowercase letter-006B>")].

Definition hangulNames : list (Z * string) := [
  (54620, "HANGUL SYLLABLE HAN");
  (44420, "HANGUL SYLLABLE GUK");
  (50612, "HANGUL SYLLABLE EO");
  (51853, "HANGUL SYLLABLE JJYEOLG")].

Definition hexNames : list (Z * string) := [
  (28450, "CJK UNIFIED IDEOGRAPH-6F22");
  (94240, "TANGUT IDEOGRAPH-17020")].

Definition addRemove : list setop := [
  SetTo (SRange 97 123);
  Expect [97; 122] 26;
  Remove 109 112;
  Expect [97; 108; 113; 122] 22;
  Remove 101 103;
  Expect [97; 100; 104; 108; 113; 122] 19;
  Remove 100 105;
  Expect [97; 99; 106; 108; 113; 122] 16;
  Remove 99 114;
  Expect [97; 98; 115; 122] 10;
  AddR 102 113;
  Expect [97; 98; 102; 113; 115; 122] 22;
  Remove 97 103;
  Expect [104; 113; 115; 122] 18;
  Remove 97 122;
  Expect [] 0;
  Add 97;
  Add 98;
  Add 99;
  Expect [97; 99] 3;
  Add 112;
  Add 113;
  Expect [97; 99; 112; 113] 5].
