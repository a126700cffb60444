#!/usr/bin/env python3
"""Write rocq/theories/Data_Text.v: the text of modules of /repo/UnicodeData, line by line."""
import os

REPO = "/repo/UnicodeData"
OUT = os.path.join(os.path.dirname(os.path.abspath(__file__)), "..", "rocq", "theories")
MODS = ["uchar_h", "uscript_h", "ucase_h", "uprops_h", "Blocks", "Boundaries", "CharDirection", "Characters",
        "DecompositionType", "EastAsianWidth", "GeneralCategories", "JoiningTypesAndGroups", "LayoutTypes",
        "Scripts", "UCDTypeDictionaries", "UnicodeVersion", "BidiPropsData", "CasePropsData", "CharPropsData", "Norm2NFCData"]

v = ["(** * The text of the modules of constants of UnicodeData.", "",
     "    Written by tools/gen_text.py, which copies the lines of each file. *)",
     "From Coq Require Import List String.", "Import ListNotations.", "Open Scope string_scope.", ""]
for mod in MODS:
    src = open("%s/%s.py" % (REPO, mod), newline="").read()
    assert src.isascii() and "\r" not in src and "\t" not in src
    lines = src.split("\n")
    v.append("(** %s.py:1-%d *)" % (mod, len(lines)))
    v.append("Definition %s_lines : list string := [\n%s]." % (mod, ";\n".join('"%s"' % l.replace('"', '""') for l in lines)))
    v.append("")
open(os.path.join(OUT, "Data_Text.v"), "w").write("\n".join(v))
