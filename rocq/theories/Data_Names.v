(** * The name dictionaries, as lists of (value, name) in source order.

    Written by tools/gen_data.py, which copies the dictionaries and resolves the
    constants used as keys (uchar_h.py, uscript_h.py or the module itself).  A later
    entry for the same key wins in Python.  Entries of Scripts.scriptCodes whose key is
    a one element tuple (`USCRIPT_UCAS = USCRIPT_CANADIAN_ABORIGINAL,`) are left out. *)
From Coq Require Import ZArith List String.
Import ListNotations.
Open Scope Z_scope.
Open Scope string_scope.

(** UCDTypeDictionaries.py:10-34 *)
Definition bidiClassNames : list (Z * string) := [
  (13, "AL");
  (5, "AN");
  (7, "B");
  (18, "BN");
  (6, "CS");
  (2, "EN");
  (3, "ES");
  (4, "ET");
  (19, "FSI");
  (0, "L");
  (11, "LRE");
  (20, "LRI");
  (12, "LRO");
  (17, "NSM");
  (10, "ON");
  (16, "PDF");
  (22, "PDI");
  (1, "R");
  (14, "RLE");
  (21, "RLI");
  (15, "RLO");
  (8, "S");
  (9, "WS")].

(** UCDTypeDictionaries.py:36-346 *)
Definition blockNames : list (Z * string) := [
  (1, "ASCII");
  (263, "Adlam");
  (119, "Aegean Numbers");
  (253, "Ahom");
  (208, "Alchemical");
  (80, "Alphabetic PF");
  (254, "Anatolian Hieroglyphs");
  (126, "Ancient Greek Music");
  (127, "Ancient Greek Numbers");
  (165, "Ancient Symbols");
  (12, "Arabic");
  (210, "Arabic Ext A");
  (211, "Arabic Math");
  (81, "Arabic PF A");
  (85, "Arabic PF B");
  (128, "Arabic Sup");
  (10, "Armenian");
  (46, "Arrows");
  (188, "Avestan");
  (147, "Balinese");
  (177, "Bamum");
  (202, "Bamum Sup");
  (221, "Bassa Vah");
  (199, "Batak");
  (16, "Bengali");
  (264, "Bhaiksuki");
  (53, "Block Elements");
  (64, "Bopomofo");
  (67, "Bopomofo Ext");
  (52, "Box Drawing");
  (201, "Brahmi");
  (57, "Braille");
  (129, "Buginese");
  (100, "Buhid");
  (91, "Byzantine Music");
  (71, "CJK");
  (69, "CJK Compat");
  (83, "CJK Compat Forms");
  (79, "CJK Compat Ideographs");
  (95, "CJK Compat Ideographs Sup");
  (70, "CJK Ext A");
  (94, "CJK Ext B");
  (197, "CJK Ext C");
  (209, "CJK Ext D");
  (256, "CJK Ext E");
  (274, "CJK Ext F");
  (302, "CJK Ext G");
  (58, "CJK Radicals Sup");
  (130, "CJK Strokes");
  (61, "CJK Symbols");
  (168, "Carian");
  (222, "Caucasian Albanian");
  (212, "Chakma");
  (164, "Cham");
  (32, "Cherokee");
  (255, "Cherokee Sup");
  (281, "Chess Symbols");
  (301, "Chorasmian");
  (65, "Compat Jamo");
  (49, "Control Pictures");
  (132, "Coptic");
  (223, "Coptic Epact Numbers");
  (154, "Counting Rod");
  (152, "Cuneiform");
  (153, "Cuneiform Numbers");
  (42, "Currency Symbols");
  (123, "Cypriot Syllabary");
  (9, "Cyrillic");
  (158, "Cyrillic Ext A");
  (160, "Cyrillic Ext B");
  (265, "Cyrillic Ext C");
  (97, "Cyrillic Sup");
  (90, "Deseret");
  (15, "Devanagari");
  (179, "Devanagari Ext");
  (7, "Diacriticals");
  (224, "Diacriticals Ext");
  (43, "Diacriticals For Symbols");
  (131, "Diacriticals Sup");
  (56, "Dingbats");
  (303, "Dives Akuru");
  (282, "Dogra");
  (171, "Domino");
  (225, "Duployan");
  (257, "Early Dynastic Cuneiform");
  (292, "Egyptian Hieroglyph Format Controls");
  (194, "Egyptian Hieroglyphs");
  (226, "Elbasan");
  (293, "Elymaic");
  (206, "Emoticons");
  (51, "Enclosed Alphanum");
  (195, "Enclosed Alphanum Sup");
  (68, "Enclosed CJK");
  (196, "Enclosed Ideographic Sup");
  (31, "Ethiopic");
  (133, "Ethiopic Ext");
  (200, "Ethiopic Ext A");
  (134, "Ethiopic Sup");
  (54, "Geometric Shapes");
  (227, "Geometric Shapes Ext");
  (29, "Georgian");
  (283, "Georgian Ext");
  (135, "Georgian Sup");
  (136, "Glagolitic");
  (266, "Glagolitic Sup");
  (89, "Gothic");
  (228, "Grantha");
  (8, "Greek");
  (39, "Greek Ext");
  (18, "Gujarati");
  (284, "Gunjala Gondi");
  (17, "Gurmukhi");
  (87, "Half And Full Forms");
  (82, "Half Marks");
  (74, "Hangul");
  (285, "Hanifi Rohingya");
  (99, "Hanunoo");
  (258, "Hatran");
  (11, "Hebrew");
  (76, "High PU Surrogates");
  (75, "High Surrogates");
  (62, "Hiragana");
  (60, "IDC");
  (5, "IPA Ext");
  (267, "Ideographic Symbols");
  (186, "Imperial Aramaic");
  (178, "Indic Number Forms");
  (286, "Indic Siyaq Numbers");
  (190, "Inscriptional Pahlavi");
  (189, "Inscriptional Parthian");
  (30, "Jamo");
  (180, "Jamo Ext A");
  (185, "Jamo Ext B");
  (181, "Javanese");
  (193, "Kaithi");
  (275, "Kana Ext A");
  (203, "Kana Sup");
  (66, "Kanbun");
  (59, "Kangxi");
  (22, "Kannada");
  (63, "Katakana");
  (107, "Katakana Ext");
  (162, "Kayah Li");
  (137, "Kharoshthi");
  (304, "Khitan Small Script");
  (36, "Khmer");
  (113, "Khmer Symbols");
  (229, "Khojki");
  (230, "Khudawadi");
  (26, "Lao");
  (2, "Latin 1 Sup");
  (3, "Latin Ext A");
  (38, "Latin Ext Additional");
  (4, "Latin Ext B");
  (148, "Latin Ext C");
  (149, "Latin Ext D");
  (231, "Latin Ext E");
  (156, "Lepcha");
  (44, "Letterlike Symbols");
  (111, "Limbu");
  (232, "Linear A");
  (118, "Linear B Ideograms");
  (117, "Linear B Syllabary");
  (176, "Lisu");
  (305, "Lisu Sup");
  (77, "Low Surrogates");
  (167, "Lycian");
  (169, "Lydian");
  (233, "Mahajani");
  (170, "Mahjong");
  (287, "Makasar");
  (23, "Malayalam");
  (198, "Mandaic");
  (234, "Manichaean");
  (268, "Marchen");
  (276, "Masaram Gondi");
  (93, "Math Alphanum");
  (47, "Math Operators");
  (288, "Mayan Numerals");
  (289, "Medefaidrin");
  (184, "Meetei Mayek");
  (213, "Meetei Mayek Ext");
  (235, "Mende Kikakui");
  (214, "Meroitic Cursive");
  (215, "Meroitic Hieroglyphs");
  (216, "Miao");
  (115, "Misc Arrows");
  (102, "Misc Math Symbols A");
  (105, "Misc Math Symbols B");
  (205, "Misc Pictographs");
  (55, "Misc Symbols");
  (48, "Misc Technical");
  (236, "Modi");
  (6, "Modifier Letters");
  (138, "Modifier Tone Letters");
  (37, "Mongolian");
  (269, "Mongolian Sup");
  (237, "Mro");
  (259, "Multani");
  (92, "Music");
  (28, "Myanmar");
  (182, "Myanmar Ext A");
  (238, "Myanmar Ext B");
  (0, "NB");
  (146, "NKo");
  (239, "Nabataean");
  (294, "Nandinagari");
  (139, "New Tai Lue");
  (270, "Newa");
  (45, "Number Forms");
  (277, "Nushu");
  (295, "Nyiakeng Puachue Hmong");
  (50, "OCR");
  (34, "Ogham");
  (157, "Ol Chiki");
  (260, "Old Hungarian");
  (88, "Old Italic");
  (240, "Old North Arabian");
  (241, "Old Permic");
  (140, "Old Persian");
  (290, "Old Sogdian");
  (187, "Old South Arabian");
  (191, "Old Turkic");
  (19, "Oriya");
  (242, "Ornamental Dingbats");
  (271, "Osage");
  (122, "Osmanya");
  (296, "Ottoman Siyaq Numbers");
  (78, "PUA");
  (243, "Pahawh Hmong");
  (244, "Palmyrene");
  (245, "Pau Cin Hau");
  (150, "Phags Pa");
  (166, "Phaistos");
  (151, "Phoenician");
  (114, "Phonetic Ext");
  (141, "Phonetic Ext Sup");
  (204, "Playing Cards");
  (246, "Psalter Pahlavi");
  (40, "Punctuation");
  (163, "Rejang");
  (192, "Rumi");
  (35, "Runic");
  (172, "Samaritan");
  (161, "Saurashtra");
  (217, "Sharada");
  (121, "Shavian");
  (247, "Shorthand Format Controls");
  (248, "Siddham");
  (24, "Sinhala");
  (249, "Sinhala Archaic Numbers");
  (84, "Small Forms");
  (297, "Small Kana Ext");
  (291, "Sogdian");
  (218, "Sora Sompeng");
  (278, "Soyombo");
  (86, "Specials");
  (155, "Sundanese");
  (219, "Sundanese Sup");
  (103, "Sup Arrows A");
  (104, "Sup Arrows B");
  (250, "Sup Arrows C");
  (106, "Sup Math Operators");
  (109, "Sup PUA A");
  (110, "Sup PUA B");
  (142, "Sup Punctuation");
  (261, "Sup Symbols And Pictographs");
  (41, "Super And Sub");
  (262, "Sutton SignWriting");
  (143, "Syloti Nagri");
  (298, "Symbols And Pictographs Ext A");
  (306, "Symbols For Legacy Computing");
  (13, "Syriac");
  (279, "Syriac Sup");
  (98, "Tagalog");
  (101, "Tagbanwa");
  (96, "Tags");
  (112, "Tai Le");
  (174, "Tai Tham");
  (183, "Tai Viet");
  (124, "Tai Xuan Jing");
  (220, "Takri");
  (20, "Tamil");
  (299, "Tamil Sup");
  (272, "Tangut");
  (273, "Tangut Components");
  (307, "Tangut Sup");
  (21, "Telugu");
  (14, "Thaana");
  (25, "Thai");
  (27, "Tibetan");
  (144, "Tifinagh");
  (251, "Tirhuta");
  (207, "Transport And Map");
  (33, "UCAS");
  (173, "UCAS Ext");
  (120, "Ugaritic");
  (108, "VS");
  (125, "VS Sup");
  (159, "Vai");
  (175, "Vedic Ext");
  (145, "Vertical Forms");
  (300, "Wancho");
  (252, "Warang Citi");
  (308, "Yezidi");
  (73, "Yi Radicals");
  (72, "Yi Syllables");
  (116, "Yijing");
  (280, "Zanabazar Square")].

(** UCDTypeDictionaries.py:348-367 *)
Definition decompositionTypeNames : list (Z * string) := [
  (1, "can");
  (2, "com");
  (3, "enc");
  (4, "fin");
  (5, "font");
  (6, "fra");
  (7, "init");
  (8, "iso");
  (9, "med");
  (10, "nar");
  (11, "nb");
  (0, "none");
  (12, "sml");
  (13, "sqr");
  (14, "sub");
  (15, "sup");
  (16, "vert");
  (17, "wide")].

(** UCDTypeDictionaries.py:369-376 *)
Definition eastAsianWidthNames : list (Z * string) := [
  (1, "A");
  (3, "F");
  (2, "H");
  (0, "N");
  (4, "Na");
  (5, "W")].

(** UCDTypeDictionaries.py:378-409 *)
Definition generalCategoryNames : list (Z * string) := [
  (15, "Cc");
  (16, "Cf");
  (0, "Cn");
  (17, "Co");
  (18, "Cs");
  (2, "Ll");
  (4, "Lm");
  (5, "Lo");
  (3, "Lt");
  (1, "Lu");
  (8, "Mc");
  (7, "Me");
  (6, "Mn");
  (9, "Nd");
  (10, "Nl");
  (11, "No");
  (22, "Pc");
  (19, "Pd");
  (21, "Pe");
  (29, "Pf");
  (28, "Pi");
  (23, "Po");
  (20, "Ps");
  (25, "Sc");
  (26, "Sk");
  (24, "Sm");
  (27, "So");
  (13, "Zl");
  (14, "Zp");
  (12, "Zs")].

(** UCDTypeDictionaries.py:411-430 *)
Definition graphemeClusterBreakNames : list (Z * string) := [
  (1, "CN");
  (2, "CR");
  (13, "EB");
  (14, "EBG");
  (15, "EM");
  (3, "EX");
  (16, "GAZ");
  (4, "L");
  (5, "LF");
  (6, "LV");
  (7, "LVT");
  (11, "PP");
  (12, "RI");
  (10, "SM");
  (8, "T");
  (9, "V");
  (0, "XX");
  (17, "ZWJ")].

(** UCDTypeDictionaries.py:432-439 *)
Definition hangulSyllableTypeNames : list (Z * string) := [
  (1, "L");
  (4, "LV");
  (5, "LVT");
  (0, "NA");
  (3, "T");
  (2, "V")].

(** UCDTypeDictionaries.py:441-458 *)
Definition indicPositionalCategoryNames : list (Z * string) := [
  (1, "Bottom");
  (2, "Bottom_And_Left");
  (3, "Bottom_And_Right");
  (4, "Left");
  (5, "Left_And_Right");
  (0, "NA");
  (6, "Overstruck");
  (7, "Right");
  (8, "Top");
  (9, "Top_And_Bottom");
  (15, "Top_And_Bottom_And_Left");
  (10, "Top_And_Bottom_And_Right");
  (11, "Top_And_Left");
  (12, "Top_And_Left_And_Right");
  (13, "Top_And_Right");
  (14, "Visual_Order_Left")].

(** UCDTypeDictionaries.py:460-497 *)
Definition indicSyllabicCategoryNames : list (Z * string) := [
  (1, "Avagraha");
  (2, "Bindu");
  (3, "Brahmi_Joining_Number");
  (4, "Cantillation_Mark");
  (5, "Consonant");
  (6, "Consonant_Dead");
  (7, "Consonant_Final");
  (8, "Consonant_Head_Letter");
  (9, "Consonant_Initial_Postfixed");
  (10, "Consonant_Killer");
  (11, "Consonant_Medial");
  (12, "Consonant_Placeholder");
  (13, "Consonant_Preceding_Repha");
  (14, "Consonant_Prefixed");
  (15, "Consonant_Subjoined");
  (16, "Consonant_Succeeding_Repha");
  (17, "Consonant_With_Stacker");
  (18, "Gemination_Mark");
  (19, "Invisible_Stacker");
  (20, "Joiner");
  (21, "Modifying_Letter");
  (22, "Non_Joiner");
  (23, "Nukta");
  (24, "Number");
  (25, "Number_Joiner");
  (0, "Other");
  (26, "Pure_Killer");
  (27, "Register_Shifter");
  (28, "Syllable_Modifier");
  (29, "Tone_Letter");
  (30, "Tone_Mark");
  (31, "Virama");
  (32, "Visarga");
  (33, "Vowel");
  (34, "Vowel_Dependent");
  (35, "Vowel_Independent")].

(** UCDTypeDictionaries.py:499-602 *)
Definition joiningGroupNames : list (Z * string) := [
  (86, "African Feh");
  (87, "African Noon");
  (88, "African Qaf");
  (1, "Ain");
  (2, "Alaph");
  (3, "Alef");
  (4, "Beh");
  (5, "Beth");
  (54, "Burushaski Yeh Barree");
  (6, "Dal");
  (7, "Dalath Rish");
  (8, "E");
  (55, "Farsi Yeh");
  (51, "Fe");
  (9, "Feh");
  (10, "Final Semkath");
  (11, "Gaf");
  (12, "Gamal");
  (13, "Hah");
  (100, "Hanifi Rohingya Kinna Ya");
  (101, "Hanifi Rohingya Pa");
  (15, "He");
  (16, "Heh");
  (17, "Heh Goal");
  (18, "Heth");
  (19, "Kaf");
  (20, "Kaph");
  (52, "Khaph");
  (21, "Knotted Heh");
  (22, "Lam");
  (23, "Lamadh");
  (89, "Malayalam Bha");
  (90, "Malayalam Ja");
  (91, "Malayalam Lla");
  (92, "Malayalam Llla");
  (93, "Malayalam Nga");
  (94, "Malayalam Nna");
  (95, "Malayalam Nnna");
  (96, "Malayalam Nya");
  (97, "Malayalam Ra");
  (98, "Malayalam Ssa");
  (99, "Malayalam Tta");
  (58, "Manichaean Aleph");
  (59, "Manichaean Ayin");
  (60, "Manichaean Beth");
  (61, "Manichaean Daleth");
  (62, "Manichaean Dhamedh");
  (63, "Manichaean Five");
  (64, "Manichaean Gimel");
  (65, "Manichaean Heth");
  (66, "Manichaean Hundred");
  (67, "Manichaean Kaph");
  (68, "Manichaean Lamedh");
  (69, "Manichaean Mem");
  (70, "Manichaean Nun");
  (71, "Manichaean One");
  (72, "Manichaean Pe");
  (73, "Manichaean Qoph");
  (74, "Manichaean Resh");
  (75, "Manichaean Sadhe");
  (76, "Manichaean Samekh");
  (77, "Manichaean Taw");
  (78, "Manichaean Ten");
  (79, "Manichaean Teth");
  (80, "Manichaean Thamedh");
  (81, "Manichaean Twenty");
  (82, "Manichaean Waw");
  (83, "Manichaean Yodh");
  (84, "Manichaean Zayin");
  (24, "Meem");
  (25, "Mim");
  (0, "No Joining Group");
  (26, "Noon");
  (27, "Nun");
  (56, "Nya");
  (28, "Pe");
  (29, "Qaf");
  (30, "Qaph");
  (31, "Reh");
  (32, "Reversed Pe");
  (57, "Rohingya Yeh");
  (33, "Sad");
  (34, "Sadhe");
  (35, "Seen");
  (36, "Semkath");
  (37, "Shin");
  (85, "Straight Waw");
  (38, "Swash Kaf");
  (39, "Syriac Waw");
  (40, "Tah");
  (41, "Taw");
  (42, "Teh Marbuta");
  (14, "Teh Marbuta Goal");
  (43, "Teth");
  (44, "Waw");
  (45, "Yeh");
  (46, "Yeh Barree");
  (47, "Yeh With Tail");
  (48, "Yudh");
  (49, "Yudh He");
  (50, "Zain");
  (53, "Zhain")].

(** UCDTypeDictionaries.py:604-611 *)
Definition joiningTypeNames : list (Z * string) := [
  (1, "C");
  (2, "D");
  (3, "L");
  (4, "R");
  (5, "T");
  (0, "U")].

(** UCDTypeDictionaries.py:613-657 *)
Definition lineBreakNames : list (Z * string) := [
  (1, "AI");
  (2, "AL");
  (3, "B2");
  (4, "BA");
  (5, "BB");
  (6, "BK");
  (7, "CB");
  (37, "CJ");
  (8, "CL");
  (9, "CM");
  (36, "CP");
  (10, "CR");
  (40, "EB");
  (41, "EM");
  (11, "EX");
  (12, "GL");
  (31, "H2");
  (32, "H3");
  (38, "HL");
  (13, "HY");
  (14, "ID");
  (15, "IN");
  (16, "IS");
  (33, "JL");
  (34, "JT");
  (35, "JV");
  (17, "LF");
  (29, "NL");
  (18, "NS");
  (19, "NU");
  (20, "OP");
  (21, "PO");
  (22, "PR");
  (23, "QU");
  (39, "RI");
  (24, "SA");
  (25, "SG");
  (26, "SP");
  (27, "SY");
  (30, "WJ");
  (0, "XX");
  (28, "ZW");
  (42, "ZWJ")].

(** UCDTypeDictionaries.py:659-664 *)
Definition numberTypeNames : list (Z * string) := [
  (1, "De");
  (2, "Di");
  (0, "None");
  (3, "Nu")].

(** UCDTypeDictionaries.py:666-682 *)
Definition sentenceBreakNames : list (Z * string) := [
  (1, "AT");
  (2, "CL");
  (11, "CR");
  (12, "EX");
  (3, "FO");
  (6, "LE");
  (13, "LF");
  (4, "LO");
  (5, "NU");
  (14, "SC");
  (7, "SE");
  (8, "SP");
  (9, "ST");
  (10, "UP");
  (0, "XX")].

(** UCDTypeDictionaries.py:684-878 *)
Definition scriptNames : list (Z * string) := [
  (167, "Adlm");
  (147, "Afak");
  (159, "Aghb");
  (161, "Ahom");
  (2, "Arab");
  (116, "Armi");
  (3, "Armn");
  (117, "Avst");
  (62, "Bali");
  (130, "Bamu");
  (134, "Bass");
  (63, "Batk");
  (4, "Beng");
  (168, "Bhks");
  (64, "Blis");
  (5, "Bopo");
  (65, "Brah");
  (46, "Brai");
  (55, "Bugi");
  (44, "Buhd");
  (118, "Cakm");
  (40, "Cans");
  (104, "Cari");
  (66, "Cham");
  (6, "Cher");
  (189, "Chrs");
  (67, "Cirt");
  (7, "Copt");
  (47, "Cprt");
  (8, "Cyrl");
  (68, "Cyrs");
  (10, "Deva");
  (190, "Diak");
  (178, "Dogr");
  (9, "Dsrt");
  (135, "Dupl");
  (69, "Egyd");
  (70, "Egyh");
  (71, "Egyp");
  (136, "Elba");
  (185, "Elym");
  (11, "Ethi");
  (72, "Geok");
  (12, "Geor");
  (56, "Glag");
  (179, "Gong");
  (175, "Gonm");
  (13, "Goth");
  (137, "Gran");
  (14, "Grek");
  (15, "Gujr");
  (16, "Guru");
  (172, "Hanb");
  (18, "Hang");
  (17, "Hani");
  (43, "Hano");
  (73, "Hans");
  (74, "Hant");
  (162, "Hatr");
  (19, "Hebr");
  (20, "Hira");
  (156, "Hluw");
  (75, "Hmng");
  (186, "Hmnp");
  (54, "Hrkt");
  (76, "Hung");
  (77, "Inds");
  (30, "Ital");
  (173, "Jamo");
  (78, "Java");
  (105, "Jpan");
  (148, "Jurc");
  (79, "Kali");
  (22, "Kana");
  (57, "Khar");
  (23, "Khmr");
  (157, "Khoj");
  (191, "Kits");
  (21, "Knda");
  (119, "Kore");
  (138, "Kpel");
  (120, "Kthi");
  (106, "Lana");
  (24, "Laoo");
  (80, "Latf");
  (81, "Latg");
  (25, "Latn");
  (82, "Lepc");
  (48, "Limb");
  (83, "Lina");
  (49, "Linb");
  (131, "Lisu");
  (139, "Loma");
  (107, "Lyci");
  (108, "Lydi");
  (160, "Mahj");
  (180, "Maka");
  (84, "Mand");
  (121, "Mani");
  (169, "Marc");
  (85, "Maya");
  (181, "Medf");
  (140, "Mend");
  (141, "Merc");
  (86, "Mero");
  (26, "Mlym");
  (163, "Modi");
  (27, "Mong");
  (114, "Moon");
  (149, "Mroo");
  (115, "Mtei");
  (164, "Mult");
  (28, "Mymr");
  (187, "Nand");
  (142, "Narb");
  (143, "Nbat");
  (170, "Newa");
  (132, "Nkgb");
  (87, "Nkoo");
  (150, "Nshu");
  (29, "Ogam");
  (109, "Olck");
  (88, "Orkh");
  (31, "Orya");
  (171, "Osge");
  (50, "Osma");
  (144, "Palm");
  (165, "Pauc");
  (89, "Perm");
  (90, "Phag");
  (122, "Phli");
  (123, "Phlp");
  (124, "Phlv");
  (91, "Phnx");
  (92, "Plrd");
  (125, "Prti");
  (110, "Rjng");
  (182, "Rohg");
  (93, "Roro");
  (32, "Runr");
  (126, "Samr");
  (94, "Sara");
  (133, "Sarb");
  (111, "Saur");
  (112, "Sgnw");
  (51, "Shaw");
  (151, "Shrd");
  (166, "Sidd");
  (145, "Sind");
  (33, "Sinh");
  (183, "Sogd");
  (184, "Sogo");
  (152, "Sora");
  (176, "Soyo");
  (113, "Sund");
  (58, "Sylo");
  (34, "Syrc");
  (95, "Syre");
  (96, "Syrj");
  (97, "Syrn");
  (45, "Tagb");
  (153, "Takr");
  (52, "Tale");
  (59, "Talu");
  (35, "Taml");
  (154, "Tang");
  (127, "Tavt");
  (36, "Telu");
  (98, "Teng");
  (60, "Tfng");
  (42, "Tglg");
  (37, "Thaa");
  (38, "Thai");
  (39, "Tibt");
  (158, "Tirh");
  (53, "Ugar");
  (99, "Vaii");
  (100, "Visp");
  (146, "Wara");
  (188, "Wcho");
  (155, "Wole");
  (61, "Xpeo");
  (101, "Xsux");
  (192, "Yezi");
  (41, "Yiii");
  (177, "Zanb");
  (1, "Zinh");
  (128, "Zmth");
  (174, "Zsye");
  (129, "Zsym");
  (102, "Zxxx");
  (0, "Zyyy");
  (103, "Zzzz")].

(** UCDTypeDictionaries.py:880-885 *)
Definition verticalOrientationNames : list (Z * string) := [
  (0, "R");
  (1, "Tr");
  (2, "Tu");
  (3, "U")].

(** UCDTypeDictionaries.py:887-911 *)
Definition wordBreakNames : list (Z * string) := [
  (8, "CR");
  (16, "DQ");
  (17, "EB");
  (18, "EBG");
  (19, "EM");
  (7, "EX");
  (9, "Extend");
  (2, "FO");
  (20, "GAZ");
  (14, "HL");
  (3, "KA");
  (1, "LE");
  (10, "LF");
  (11, "MB");
  (4, "ML");
  (5, "MN");
  (12, "NL");
  (6, "NU");
  (13, "RI");
  (15, "SQ");
  (22, "WSegSpace");
  (0, "XX");
  (21, "ZWJ")].

(** GeneralCategories.py:175-206 *)
Definition GC_generalCategories : list (Z * string) := [
  (0, "Cn");
  (1, "Lu");
  (2, "Ll");
  (3, "Lt");
  (4, "Lm");
  (5, "Lo");
  (6, "Mn");
  (7, "Me");
  (8, "Mc");
  (9, "Nd");
  (10, "Nl");
  (11, "No");
  (12, "Zs");
  (13, "Zl");
  (14, "Zp");
  (15, "Cc");
  (16, "Cf");
  (17, "Co");
  (18, "Cs");
  (19, "Pd");
  (20, "Ps");
  (21, "Pe");
  (22, "Pc");
  (23, "Po");
  (24, "Sm");
  (25, "Sc");
  (26, "Sk");
  (27, "So");
  (28, "Pi");
  (29, "Pf")].

(** CharDirection.py:56-103 *)
Definition CD_bidiClassNames : list (Z * string) := [
  (0, "L");
  (1, "R");
  (2, "EN");
  (3, "ES");
  (4, "ET");
  (5, "AN");
  (6, "CS");
  (7, "B");
  (8, "S");
  (9, "WS");
  (10, "ON");
  (11, "LRE");
  (12, "LRO");
  (13, "AL");
  (14, "RLE");
  (15, "RLO");
  (16, "PDF");
  (17, "NSM");
  (18, "BN");
  (19, "FSI");
  (20, "LRI");
  (21, "RLI");
  (22, "PDI")].

(** Boundaries.py:153-172 *)
Definition BD_graphemeClusterBreakNames : list (Z * string) := [
  (0, "XX");
  (1, "CN");
  (2, "CR");
  (3, "EX");
  (4, "L");
  (5, "LF");
  (6, "LV");
  (7, "LVT");
  (8, "T");
  (9, "V");
  (10, "SM");
  (11, "PP");
  (12, "RI");
  (13, "EB");
  (14, "EBG");
  (15, "EM");
  (16, "GAZ");
  (17, "ZWJ")].

(** Boundaries.py:174-198 *)
Definition BD_wordBreakNames : list (Z * string) := [
  (0, "XX");
  (1, "LE");
  (2, "FO");
  (3, "KA");
  (4, "ML");
  (5, "MN");
  (6, "NU");
  (7, "EX");
  (8, "CR");
  (9, "Extend");
  (10, "LF");
  (11, "MB");
  (12, "NL");
  (13, "RI");
  (14, "HL");
  (15, "SQ");
  (16, "DQ");
  (17, "EB");
  (18, "EBG");
  (19, "EM");
  (20, "GAZ");
  (21, "ZWJ");
  (22, "WSEGSPACE")].

(** Boundaries.py:200-216 *)
Definition BD_sentenceBreakNames : list (Z * string) := [
  (0, "XX");
  (1, "AT");
  (2, "CL");
  (3, "FO");
  (4, "LO");
  (5, "NU");
  (6, "LE");
  (7, "SE");
  (8, "SP");
  (9, "ST");
  (10, "UP");
  (11, "CR");
  (12, "EX");
  (13, "LF");
  (14, "SC")].

(** Boundaries.py:218-262 *)
Definition BD_lineBreakNames : list (Z * string) := [
  (0, "XX");
  (1, "AI");
  (2, "AL");
  (3, "B2");
  (4, "BA");
  (5, "BB");
  (6, "BK");
  (7, "CB");
  (8, "CL");
  (9, "CM");
  (10, "CR");
  (11, "EX");
  (12, "GL");
  (13, "HY");
  (14, "ID");
  (15, "IN");
  (16, "IS");
  (17, "LF");
  (18, "NS");
  (19, "NU");
  (20, "OP");
  (21, "PO");
  (22, "PR");
  (23, "QU");
  (24, "SA");
  (25, "SG");
  (26, "SP");
  (27, "SY");
  (28, "ZW");
  (29, "NL");
  (30, "WJ");
  (31, "H2");
  (32, "H3");
  (33, "JL");
  (34, "JT");
  (35, "JV");
  (36, "CP");
  (37, "CJ");
  (38, "HL");
  (39, "RI");
  (40, "EB");
  (41, "EM");
  (42, "ZWJ")].

(** EastAsianWidth.py:16-23 *)
Definition EA_eastAsianWidthNames : list (Z * string) := [
  (0, "N");
  (1, "A");
  (2, "H");
  (3, "F");
  (4, "Na");
  (5, "W")].

(** DecompositionType.py:28-47 *)
Definition DT_decompositionTypeNames : list (Z * string) := [
  (0, "none");
  (1, "can");
  (2, "com");
  (3, "enc");
  (4, "fin");
  (5, "font");
  (6, "fra");
  (7, "init");
  (8, "iso");
  (9, "med");
  (10, "nar");
  (11, "nb");
  (12, "sml");
  (13, "sqr");
  (14, "sub");
  (15, "sup");
  (16, "vert");
  (17, "wide")].

(** JoiningTypesAndGroups.py:16-23 *)
Definition JG_joiningTypes : list (Z * string) := [
  (0, "U");
  (1, "C");
  (2, "D");
  (3, "L");
  (4, "R");
  (5, "T")].

(** JoiningTypesAndGroups.py:129-232 *)
Definition JG_joiningGroups : list (Z * string) := [
  (0, "No Joining Group");
  (1, "Ain");
  (2, "Alaph");
  (3, "Alef");
  (4, "Beh");
  (5, "Beth");
  (6, "Dal");
  (7, "Dalath Rish");
  (8, "E");
  (9, "Feh");
  (10, "Final Semkath");
  (11, "Gaf");
  (12, "Gamal");
  (13, "Hah");
  (14, "Teh Marbuta Goal");
  (15, "He");
  (16, "Heh");
  (17, "Heh Goal");
  (18, "Heth");
  (19, "Kaf");
  (20, "Kaph");
  (21, "Knotted Heh");
  (22, "Lam");
  (23, "Lamadh");
  (24, "Meem");
  (25, "Mim");
  (26, "Noon");
  (27, "Nun");
  (28, "Pe");
  (29, "Qaf");
  (30, "Qaph");
  (31, "Reh");
  (32, "Reversed Pe");
  (33, "Sad");
  (34, "Sadhe");
  (35, "Seen");
  (36, "Semkath");
  (37, "Shin");
  (38, "Swash Kaf");
  (39, "Syriac Waw");
  (40, "Tah");
  (41, "Taw");
  (42, "Teh Marbuta");
  (43, "Teth");
  (44, "Waw");
  (45, "Yeh");
  (46, "Yeh Barree");
  (47, "Yeh With Tail");
  (48, "Yudh");
  (49, "Yudh He");
  (50, "Zain");
  (51, "Fe");
  (52, "Khaph");
  (53, "Zhain");
  (54, "Burushaski Yeh Barree");
  (55, "Farsi Yeh");
  (56, "Nya");
  (57, "Rohingya Yeh");
  (58, "Manichaean Aleph");
  (59, "Manichaean Ayin");
  (60, "Manichaean Beth");
  (61, "Manichaean Daleth");
  (62, "Manichaean Dhamedh");
  (63, "Manichaean Five");
  (64, "Manichaean Gimel");
  (65, "Manichaean Heth");
  (66, "Manichaean Hundred");
  (67, "Manichaean Kaph");
  (68, "Manichaean Lamedh");
  (69, "Manichaean Mem");
  (70, "Manichaean Nun");
  (71, "Manichaean One");
  (72, "Manichaean Pe");
  (73, "Manichaean Qoph");
  (74, "Manichaean Resh");
  (75, "Manichaean Sadhe");
  (76, "Manichaean Samekh");
  (77, "Manichaean Taw");
  (78, "Manichaean Ten");
  (79, "Manichaean Teth");
  (80, "Manichaean Thamedh");
  (81, "Manichaean Twenty");
  (82, "Manichaean Waw");
  (83, "Manichaean Yodh");
  (84, "Manichaean Zayin");
  (85, "Straight Waw");
  (86, "African Feh");
  (87, "African Noon");
  (88, "African Qaf");
  (89, "Malayalam Bha");
  (90, "Malayalam Ja");
  (91, "Malayalam Lla");
  (92, "Malayalam Llla");
  (93, "Malayalam Nga");
  (94, "Malayalam Nna");
  (95, "Malayalam Nnna");
  (96, "Malayalam Nya");
  (97, "Malayalam Ra");
  (98, "Malayalam Ssa");
  (99, "Malayalam Tta");
  (100, "Hanifi Rohingya Kinna Ya");
  (101, "Hanifi Rohingya Pa")].

(** LayoutTypes.py:71-88 *)
Definition LT_inpcNames : list (Z * string) := [
  (0, "NA");
  (1, "Bottom");
  (2, "Bottom_And_Left");
  (3, "Bottom_And_Right");
  (4, "Left");
  (5, "Left_And_Right");
  (6, "Overstruck");
  (7, "Right");
  (8, "Top");
  (9, "Top_And_Bottom");
  (10, "Top_And_Bottom_And_Right");
  (11, "Top_And_Left");
  (12, "Top_And_Left_And_Right");
  (13, "Top_And_Right");
  (14, "Visual_Order_Left");
  (15, "Top_And_Bottom_And_Left")].

(** LayoutTypes.py:90-127 *)
Definition LT_inscNames : list (Z * string) := [
  (0, "Other");
  (1, "Avagraha");
  (2, "Bindu");
  (3, "Brahmi_Joining_Number");
  (4, "Cantillation_Mark");
  (5, "Consonant");
  (6, "Consonant_Dead");
  (7, "Consonant_Final");
  (8, "Consonant_Head_Letter");
  (9, "Consonant_Initial_Postfixed");
  (10, "Consonant_Killer");
  (11, "Consonant_Medial");
  (12, "Consonant_Placeholder");
  (13, "Consonant_Preceding_Repha");
  (14, "Consonant_Prefixed");
  (15, "Consonant_Subjoined");
  (16, "Consonant_Succeeding_Repha");
  (17, "Consonant_With_Stacker");
  (18, "Gemination_Mark");
  (19, "Invisible_Stacker");
  (20, "Joiner");
  (21, "Modifying_Letter");
  (22, "Non_Joiner");
  (23, "Nukta");
  (24, "Number");
  (25, "Number_Joiner");
  (26, "Pure_Killer");
  (27, "Register_Shifter");
  (28, "Syllable_Modifier");
  (29, "Tone_Letter");
  (30, "Tone_Mark");
  (31, "Virama");
  (32, "Visarga");
  (33, "Vowel");
  (34, "Vowel_Dependent");
  (35, "Vowel_Independent")].

(** LayoutTypes.py:129-134 *)
Definition LT_voNames : list (Z * string) := [
  (0, "R");
  (1, "Tr");
  (2, "Tu");
  (3, "U")].

(** Scripts.py:221-430 *)
Definition SC_scriptCodes : list (Z * string) := [
  (0, "Zyyy");
  (1, "Zinh");
  (2, "Arab");
  (3, "Armn");
  (4, "Beng");
  (5, "Bopo");
  (6, "Cher");
  (7, "Copt");
  (8, "Cyrl");
  (9, "Dsrt");
  (10, "Deva");
  (11, "Ethi");
  (12, "Geor");
  (13, "Goth");
  (14, "Grek");
  (15, "Gujr");
  (16, "Guru");
  (17, "Hani");
  (18, "Hang");
  (19, "Hebr");
  (20, "Hira");
  (21, "Knda");
  (22, "Kana");
  (23, "Khmr");
  (24, "Laoo");
  (25, "Latn");
  (26, "Mlym");
  (27, "Mong");
  (28, "Mymr");
  (29, "Ogam");
  (30, "Ital");
  (31, "Orya");
  (32, "Runr");
  (33, "Sinh");
  (34, "Syrc");
  (35, "Taml");
  (36, "Telu");
  (37, "Thaa");
  (38, "Thai");
  (39, "Tibt");
  (40, "Cans");
  (41, "Yiii");
  (42, "Tglg");
  (43, "Hano");
  (44, "Buhd");
  (45, "Tagb");
  (46, "Brai");
  (47, "Cprt");
  (48, "Limb");
  (49, "Linb");
  (50, "Osma");
  (51, "Shaw");
  (52, "Tale");
  (53, "Ugar");
  (54, "Hrkt");
  (55, "Bugi");
  (56, "Glag");
  (57, "Khar");
  (58, "Sylo");
  (59, "Talu");
  (60, "Tfng");
  (61, "Xpeo");
  (62, "Bali");
  (63, "Batk");
  (64, "Blis");
  (65, "Brah");
  (66, "Cham");
  (67, "Cirt");
  (68, "Cyrs");
  (69, "Egyd");
  (70, "Egyh");
  (71, "Egyp");
  (72, "Geok");
  (73, "Hans");
  (74, "Hant");
  (75, "Hmng");
  (76, "Hung");
  (77, "Inds");
  (78, "Java");
  (79, "Kali");
  (80, "Latf");
  (81, "Latg");
  (82, "Lepc");
  (83, "Lina");
  (84, "Mand");
  (85, "Maya");
  (86, "Mero");
  (87, "Nkoo");
  (88, "Orkh");
  (89, "Perm");
  (90, "Phag");
  (91, "Phnx");
  (92, "Plrd");
  (93, "Roro");
  (94, "Sara");
  (95, "Syre");
  (96, "Syrj");
  (97, "Syrn");
  (98, "Teng");
  (99, "Vaii");
  (100, "Visp");
  (101, "Xsux");
  (102, "Zxxx");
  (103, "Zzzz");
  (104, "Cari");
  (105, "Jpan");
  (106, "Lana");
  (107, "Lyci");
  (108, "Lydi");
  (109, "Olck");
  (110, "Rjng");
  (111, "Saur");
  (112, "Sgnw");
  (113, "Sund");
  (114, "Moon");
  (115, "Mtei");
  (116, "Armi");
  (117, "Avst");
  (118, "Cakm");
  (119, "Kore");
  (120, "Kthi");
  (121, "Mani");
  (122, "Phli");
  (123, "Phlp");
  (124, "Phlv");
  (125, "Prti");
  (126, "Samr");
  (127, "Tavt");
  (128, "Zmth");
  (129, "Zsym");
  (130, "Bamu");
  (131, "Lisu");
  (132, "Nkgb");
  (133, "Sarb");
  (134, "Bass");
  (135, "Dupl");
  (136, "Elba");
  (137, "Gran");
  (138, "Kpel");
  (139, "Loma");
  (140, "Mend");
  (141, "Merc");
  (142, "Narb");
  (143, "Nbat");
  (144, "Palm");
  (145, "Sind");
  (146, "Wara");
  (147, "Afak");
  (148, "Jurc");
  (149, "Mroo");
  (150, "Nshu");
  (151, "Shrd");
  (152, "Sora");
  (153, "Takr");
  (154, "Tang");
  (155, "Wole");
  (156, "Hluw");
  (157, "Khoj");
  (158, "Tirh");
  (159, "Aghb");
  (160, "Mahj");
  (161, "Ahom");
  (162, "Hatr");
  (163, "Modi");
  (164, "Mult");
  (165, "Pauc");
  (166, "Sidd");
  (167, "Adlm");
  (168, "Bhks");
  (169, "Marc");
  (170, "Newa");
  (171, "Osge");
  (172, "Hanb");
  (173, "Jamo");
  (174, "Zsye");
  (175, "Gonm");
  (176, "Soyo");
  (177, "Zanb");
  (178, "Dogr");
  (179, "Gong");
  (180, "Maka");
  (181, "Medf");
  (182, "Rohg");
  (183, "Sogd");
  (184, "Sogo");
  (185, "Elym");
  (186, "Hmnp");
  (187, "Nand");
  (188, "Wcho");
  (189, "Chrs");
  (190, "Diak");
  (191, "Kits");
  (192, "Yezi")].

(** Blocks.py:788-1098 *)
Definition BL_blockNames : list (Z * string) := [
  (0, "No Block");
  (1, "ASCII");
  (2, "Latin 1 Sup");
  (3, "Latin Ext A");
  (4, "Latin Ext B");
  (5, "IPA Ext");
  (6, "Modifier Letters");
  (7, "Diacriticals");
  (8, "Greek");
  (9, "Cyrillic");
  (10, "Armenian");
  (11, "Hebrew");
  (12, "Arabic");
  (13, "Syriac");
  (14, "Thaana");
  (15, "Devanagari");
  (16, "Bengali");
  (17, "Gurmukhi");
  (18, "Gujarati");
  (19, "Oriya");
  (20, "Tamil");
  (21, "Telugu");
  (22, "Kannada");
  (23, "Malayalam");
  (24, "Sinhala");
  (25, "Thai");
  (26, "Lao");
  (27, "Tibetan");
  (28, "Myanmar");
  (29, "Georgian");
  (30, "Jamo");
  (31, "Ethiopic");
  (32, "Cherokee");
  (33, "UCAS");
  (34, "Ogham");
  (35, "Runic");
  (36, "Khmer");
  (37, "Mongolian");
  (38, "Latin Ext Additional");
  (39, "Greek Ext");
  (40, "Punctuation");
  (41, "Super And Sub");
  (42, "Currency Symbols");
  (43, "Diacriticals For Symbols");
  (44, "Letterlike Symbols");
  (45, "Number Forms");
  (46, "Arrows");
  (47, "Math Operators");
  (48, "Misc Technical");
  (49, "Control Pictures");
  (50, "OCR");
  (51, "Enclosed Alphanum");
  (52, "Box Drawing");
  (53, "Block Elements");
  (54, "Geometric Shapes");
  (55, "Misc Symbols");
  (56, "Dingbats");
  (57, "Braille");
  (58, "CJK Radicals Sup");
  (59, "Kangxi");
  (60, "IDC");
  (61, "CJK Symbols");
  (62, "Hiragana");
  (63, "Katakana");
  (64, "Bopomofo");
  (65, "Compat Jamo");
  (66, "Kanbun");
  (67, "Bopomofo Ext");
  (68, "Enclosed CJK");
  (69, "CJK Compat");
  (70, "CJK Ext A");
  (71, "CJK");
  (72, "Yi Syllables");
  (73, "Yi Radicals");
  (74, "Hangul");
  (75, "High Surrogates");
  (76, "High Private Use Surrogates");
  (77, "Low Surrogates");
  (78, "Private Use Area");
  (79, "CJK Compat Ideographs");
  (80, "Alphabetic PF");
  (81, "Arabic PF A");
  (82, "Half Marks");
  (83, "CJK Compat Forms");
  (84, "Small Forms");
  (85, "Arabic PF B");
  (86, "Specials");
  (87, "Half And Full Forms");
  (88, "Old Italic");
  (89, "Gothic");
  (90, "Deseret");
  (91, "Byzantine Music");
  (92, "Music");
  (93, "Math Alphanum");
  (94, "CJK Ext B");
  (95, "CJK Compat Ideographs Sup");
  (96, "Tags");
  (97, "Cyrillic Sup");
  (98, "Tagalog");
  (99, "Hanunoo");
  (100, "Buhid");
  (101, "Tagbanwa");
  (102, "Misc Math Symbols A");
  (103, "Sup Arrows A");
  (104, "Sup Arrows B");
  (105, "Misc Math Symbols B");
  (106, "Sup Math Operators");
  (107, "Katakana Ext");
  (108, "VS");
  (109, "Supary Private Use Area A");
  (110, "Supary Private Use Area B");
  (111, "Limbu");
  (112, "Tai Le");
  (113, "Khmer Symbols");
  (114, "Phonetic Ext");
  (115, "Misc Arrows");
  (116, "Yijing");
  (117, "Linear B Syllabary");
  (118, "Linear B Ideograms");
  (119, "Aegean Numbers");
  (120, "Ugaritic");
  (121, "Shavian");
  (122, "Osmanya");
  (123, "Cypriot Syllabary");
  (124, "Tai Xuan Jing");
  (125, "VS Sup");
  (126, "Ancient Greek Music");
  (127, "Ancient Greek Numbers");
  (128, "Arabic Sup");
  (129, "Buginese");
  (130, "CJK Strokes");
  (131, "Diacriticals Sup");
  (132, "Coptic");
  (133, "Ethiopic Ext");
  (134, "Ethiopic Sup");
  (135, "Georgian Sup");
  (136, "Glagolitic");
  (137, "Kharoshthi");
  (138, "Modifier Tone Letters");
  (139, "New Tai Lue");
  (140, "Old Persian");
  (141, "Phonetic Ext Sup");
  (142, "Sup Punctuation");
  (143, "Syloti Nagri");
  (144, "Tifinagh");
  (145, "Vertical Forms");
  (146, "NKo");
  (147, "Balinese");
  (148, "Latin Ext C");
  (149, "Latin Ext D");
  (150, "Phags Pa");
  (151, "Phoenician");
  (152, "Cuneiform");
  (153, "Cuneiform Numbers");
  (154, "Counting Rod");
  (155, "Sundanese");
  (156, "Lepcha");
  (157, "Ol Chiki");
  (158, "Cyrillic Ext A");
  (159, "Vai");
  (160, "Cyrillic Ext B");
  (161, "Saurashtra");
  (162, "Kayah Li");
  (163, "Rejang");
  (164, "Cham");
  (165, "Ancient Symbols");
  (166, "Phaistos");
  (167, "Lycian");
  (168, "Carian");
  (169, "Lydian");
  (170, "Mahjong");
  (171, "Domino");
  (172, "Samaritan");
  (173, "UCAS Ext");
  (174, "Tai Tham");
  (175, "Vedic Ext");
  (176, "Lisu");
  (177, "Bamum");
  (178, "Indic Number Forms");
  (179, "Devanagari Ext");
  (180, "Jamo Ext A");
  (181, "Javanese");
  (182, "Myanmar Ext A");
  (183, "Tai Viet");
  (184, "Meetei Mayek");
  (185, "Jamo Ext B");
  (186, "Imperial Aramaic");
  (187, "Old South Arabian");
  (188, "Avestan");
  (189, "Inscriptional Parthian");
  (190, "Inscriptional Pahlavi");
  (191, "Old Turkic");
  (192, "Rumi");
  (193, "Kaithi");
  (194, "Egyptian Hieroglyphs");
  (195, "Enclosed Alphanum Sup");
  (196, "Enclosed Ideographic Sup");
  (197, "CJK Ext C");
  (198, "Mandaic");
  (199, "Batak");
  (200, "Ethiopic Ext A");
  (201, "Brahmi");
  (202, "Bamum Sup");
  (203, "Kana Sup");
  (204, "Playing Cards");
  (205, "Misc Pictographs");
  (206, "Emoticons");
  (207, "Transport And Map");
  (208, "Alchemical");
  (209, "CJK Ext D");
  (210, "Arabic Ext A");
  (211, "Arabic Math");
  (212, "Chakma");
  (213, "Meetei Mayek Ext");
  (214, "Meroitic Cursive");
  (215, "Meroitic Hieroglyphs");
  (216, "Miao");
  (217, "Sharada");
  (218, "Sora Sompeng");
  (219, "Sundanese Sup");
  (220, "Takri");
  (221, "Bassa Vah");
  (222, "Caucasian Albanian");
  (223, "Coptic Epact Numbers");
  (224, "Diacriticals Ext");
  (225, "Duployan");
  (226, "Elbasan");
  (227, "Geometric Shapes Ext");
  (228, "Grantha");
  (229, "Khojki");
  (230, "Khudawadi");
  (231, "Latin Ext E");
  (232, "Linear A");
  (233, "Mahajani");
  (234, "Manichaean");
  (235, "Mende Kikakui");
  (236, "Modi");
  (237, "Mro");
  (238, "Myanmar Ext B");
  (239, "Nabataean");
  (240, "Old North Arabian");
  (241, "Old Permic");
  (242, "Ornamental Dingbats");
  (243, "Pahawh Hmong");
  (244, "Palmyrene");
  (245, "Pau Cin Hau");
  (246, "Psalter Pahlavi");
  (247, "Shorthand Format Controls");
  (248, "Siddham");
  (249, "Sinhala Archaic Numbers");
  (250, "Sup Arrows C");
  (251, "Tirhuta");
  (252, "Warang Citi");
  (253, "Ahom");
  (254, "Anatolian Hieroglyphs");
  (255, "Cherokee Sup");
  (256, "CJK Ext E");
  (257, "Early Dynastic Cuneiform");
  (258, "Hatran");
  (259, "Multani");
  (260, "Old Hungarian");
  (261, "Sup Symbols And Pictographs");
  (262, "Sutton SignWriting");
  (263, "Adlam");
  (264, "Bhaiksuki");
  (265, "Cyrillic Ext C");
  (266, "Glagolitic Sup");
  (267, "Ideographic Symbols");
  (268, "Marchen");
  (269, "Mongolian Sup");
  (270, "Newa");
  (271, "Osage");
  (272, "Tangut");
  (273, "Tangut Components");
  (274, "CJK Ext F");
  (275, "Kana Ext A");
  (276, "Masaram Gondi");
  (277, "Nushu");
  (278, "Soyombo");
  (279, "Syriac Sup");
  (280, "Zanabazar Square");
  (281, "Chess Symbols");
  (282, "Dogra");
  (283, "Georgian Ext");
  (284, "Gunjala Gondi");
  (285, "Hanifi Rohingya");
  (286, "Indic Siyaq Numbers");
  (287, "Makasar");
  (288, "Mayan Numerals");
  (289, "Medefaidrin");
  (290, "Old Sogdian");
  (291, "Sogdian");
  (292, "Egyptian Hieroglyph Format Controls");
  (293, "Elymaic");
  (294, "Nandinagari");
  (295, "Nyiakeng Puachue Hmong");
  (296, "Ottoman Siyaq Numbers");
  (297, "Small Kana Ext");
  (298, "Symbols And Pictographs Ext A");
  (299, "Tamil Sup");
  (300, "Wancho");
  (301, "Chorasmian");
  (302, "CJK Ext G");
  (303, "Dives Akuru");
  (304, "Khitan Small Script");
  (305, "Lisu Sup");
  (306, "Symbols For Legacy Computing");
  (307, "Tangut Sup");
  (308, "Yezidi")].
