#!/usr/bin/env python3
"""Write rocq/theories/Data_*.v from the tables in /repo/UnicodeData.

The Python files are read as text: every `name = [ints]` and `name = int` is copied.
"""
import re, sys, os

REPO = "/repo/UnicodeData"
OUT = os.path.join(os.path.dirname(os.path.abspath(__file__)), "..", "rocq", "theories")
CHUNK = 512

FILES = [("CharPropsData", "Data_CharProps"), ("BidiPropsData", "Data_Bidi"),
         ("CasePropsData", "Data_Case"), ("Norm2NFCData", "Data_NFC")]

def parse(path):
    src = open(path).read()
    src = re.sub(r'""".*?"""', lambda m: "\n" * m.group(0).count("\n"), src, flags=re.S)
    src = re.sub(r"#[^\n]*", "", src)
    out = []
    for m in re.finditer(r"^(\w+)[ \t]*=[ \t]*(\[[^\]]*\]|[0-9a-fA-Fx]+)[ \t]*$", src, flags=re.M):
        line = src.count("\n", 0, m.start()) + 1
        last = src.count("\n", 0, m.end()) + 1
        val = m.group(2)
        if val[0] == "[":
            toks = [t.strip() for t in val[1:-1].split(",")]
            if toks and toks[-1] == "": toks.pop()
            out.append((m.group(1), [int(t, 0) for t in toks], line, last))
        else:
            out.append((m.group(1), int(val, 0), line, last))
    rest = re.sub(r"^(\w+)[ \t]*=[ \t]*(\[[^\]]*\]|[0-9a-fA-Fx]+)[ \t]*$", "", src, flags=re.M)
    assert rest.strip() == "", rest.strip()[:200]
    return out

def lit(l):
    s, cur = [], "  "
    for x in l:
        t = str(x) + ";"
        if len(cur) + len(t) > 110: s.append(cur); cur = "  "
        cur += t
    s.append(cur.rstrip(";"))
    return "[\n" + "\n".join(s) + "]"

for src, dst in FILES:
    v = ["(** * The tables of UnicodeData/%s.py." % src, "",
         "    Written by tools/gen_data.py, which copies the numbers of that file. *)",
         "From Coq Require Import ZArith List.", "From Verif Require Import Py Arr.",
         "Import ListNotations.", "Open Scope Z_scope.", ""]
    for name, val, line, last in parse(os.path.join(REPO, src + ".py")):
        cite = "%s.py:%d" % (src, line) + ("-%d" % last if last != line else "")
        if isinstance(val, int):
            v.append("(** %s *)\nDefinition %s : Z := %d." % (cite, name, val))
        elif len(val) <= 64:
            v.append("(** %s *)\nDefinition %s_list : list Z := %s." % (cite, name, lit(val)))
            v.append("Definition %s : arr := arr_of_list %s_list." % (name, name))
        else:
            chunks = [val[i:i+CHUNK] for i in range(0, len(val), CHUNK)]
            v.append("(** %s *)" % cite)
            for i, c in enumerate(chunks):
                v.append("Definition %s_%d : list Z := %s." % (name, i, lit(c)))
            v.append("Definition %s_list : list Z := (%s)%%list." % (name, " ++ ".join("%s_%d" % (name, i) for i in range(len(chunks)))))
            v.append("Definition %s_tree : tree := Eval vm_compute in tree_of %s_list." % (name, name))
            v.append("Definition %s : arr := arr_of_tree %d %s_tree." % (name, len(val), name))
            v.append("Lemma %s_is : %s_tree = tree_of %s_list /\\ zlen %s_list = %d." % (name, name, name, name, len(val)))
            v.append("Proof. split; vm_compute; reflexivity. Qed.")
        v.append("")
    open(os.path.join(OUT, dst + ".v"), "w").write("\n".join(v))
    print(dst, sum(map(len, v)))

# --- name dictionaries ---------------------------------------------------------------

def constants(path, env):
    """`NAME = int` and `NAME = NAME` lines, in order."""
    for m in re.finditer(r"^(\w+)[ \t]*=[ \t]*(-?\w+)[ \t]*(?:#[^\n]*)?$", open(path).read(), flags=re.M):
        v = m.group(2)
        if re.fullmatch(r"-?(0x[0-9a-fA-F]+|[0-9]+)", v): env[m.group(1)] = int(v, 0)
        elif v in env: env[m.group(1)] = env[v]
    # `NAME = NAME,` is a one element tuple: such keys are no ints
    for m in re.finditer(r"^(\w+)[ \t]*=[ \t]*(\w+),[ \t]*(?:#[^\n]*)?$", open(path).read(), flags=re.M):
        env[m.group(1)] = None
    return env

def dictionaries(path, env):
    src = open(path).read()
    out = []
    for m in re.finditer(r"^(\w+)[ \t]*=[ \t]*\{([^}]*)\}", src, flags=re.M):
        line = src.count("\n", 0, m.start()) + 1
        last = src.count("\n", 0, m.end()) + 1
        body = re.sub(r"#[^\n]*", "", m.group(2))
        items = []
        for it in re.findall(r"(\w+)[ \t]*:[ \t]*(?:\"([^\"]*)\"|'([^']*)')", body):
            items.append((env[it[0]], it[1] or it[2]))
            if env[it[0]] is None: print("tuple key", it[0])
        assert len(items) == body.count(":"), (path, m.group(1), len(items), body.count(":"))
        out.append((m.group(1), [i for i in items if i[0] is not None], line, last))
    return out

SHARED = constants(REPO + "/uscript_h.py", constants(REPO + "/uchar_h.py", {}))
v = ["(** * The name dictionaries, as lists of (value, name) in source order.", "",
     "    Written by tools/gen_data.py, which copies the dictionaries and resolves the",
     "    constants used as keys (uchar_h.py, uscript_h.py or the module itself).  A later",
     "    entry for the same key wins in Python.  Entries of Scripts.scriptCodes whose key is",
     "    a one element tuple (`USCRIPT_UCAS = USCRIPT_CANADIAN_ABORIGINAL,`) are left out. *)",
     "From Coq Require Import ZArith List String.", "Import ListNotations.", "Open Scope Z_scope.", "Open Scope string_scope.", ""]
for mod, prefix in [("UCDTypeDictionaries", ""), ("GeneralCategories", "GC_"), ("CharDirection", "CD_"), ("Boundaries", "BD_"),
                    ("EastAsianWidth", "EA_"), ("DecompositionType", "DT_"), ("JoiningTypesAndGroups", "JG_"),
                    ("LayoutTypes", "LT_"), ("Scripts", "SC_"), ("Blocks", "BL_")]:
    env = SHARED if prefix == "" else constants("%s/%s.py" % (REPO, mod), {})
    for name, items, line, last in dictionaries("%s/%s.py" % (REPO, mod), env):
        v.append("(** %s.py:%d-%d *)" % (mod, line, last))
        v.append("Definition %s%s : list (Z * string) := [" % (prefix, name))
        v.append(";\n".join("  (%s, \"%s\")" % (k if k >= 0 else "(%d)" % k, n) for k, n in items) + "].")
        v.append("")
        print(mod, name, len(items), "keys", len(set(k for k, _ in items)), "names", len(set(n for _, n in items)))
open(os.path.join(OUT, "Data_Names.v"), "w").write("\n".join(v))
