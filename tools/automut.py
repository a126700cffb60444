#!/usr/bin/env python3
"""List small wrong edits of the model, made by rule.

usage: automut.py THEORIES OUT.json [FILE.v ...]

For every definition of the model (one whose preceding comment cites a .py file) each
comparison, boolean connective, arithmetic operator, number, exception and conditional is
changed once.  The edit is given as a character range of the file.
"""
import json, os, re, sys

FILES = """UnicodeSet UnicodeSetHeap UnicodeSetText Utilities UTrie2 CPTrie CPTrieBinary CharProps CaseProps BidiProps
Normalizer2 Normalizer2File ICUDataFile CharNames UCD UCDIndex PyModule HeaderFile ModuleBuilder BuilderArgs Build
CsvReader EnumShipped""".split()
RULES = [
    (r"<=\?", ["<?"]), (r"(?<![<>])<\?", ["<=?"]), (r">=\?", [">?"]), (r"(?<![<>])>\?", [">=?"]),
    (r"(?<![<>=])=\?(?!\w)", ["<=?"]), (r"&&", ["||"]), (r"\|\|", ["&&"]), (r"\bnegb\b", ["id"]),
    (r"(?<= )\+(?= )", ["-"]), (r"(?<= )-(?= )", ["+"]), (r"(?<= )\*(?= )", ["+"]),
    (r"\bZ\.land\b", ["Z.lor"]), (r"\bZ\.lor\b", ["Z.land"]), (r"\bZ\.shiftr\b", ["Z.shiftl"]), (r"\bZ\.shiftl\b", ["Z.shiftr"]),
    (r"\bZ\.lxor\b", ["Z.lor"]), (r"\bZ\.div\b", ["Z.modulo"]), (r"\bmod\b", ["/"]),
    (r"\bIndexError\b", ["ValueError"]), (r"\bValueError\b", ["IndexError"]), (r"\bKeyError\b", ["IndexError"]), (r"\bTypeError\b", ["IndexError"]),
    (r"\btrue\b", ["false"]), (r"\bfalse\b", ["true"]),
    (r"(?<![\w.'\"])(0x[0-9A-Fa-f]+|\d+)(?![\w'%.])", [None]),
    (r"\bif\b(?=[^;]*?\bthen\b)", ["IF"]),
]
MASK = re.compile(r'\(\*.*?\*\)|"(?:[^"]|"")*"', re.S)

def definitions(src, always=False):
    """(name, start, end) of the definitions that model code."""
    starts = [m for m in re.finditer(r"^[ \t]*(?:Local |Global )?(Definition|Fixpoint|Record|Inductive|Lemma|Theorem|Example|Corollary|Section|End|Notation|Variable|Variables|Hypothesis|Context|Let|Ltac|Open|Import|From|Function|Arguments|Fact|Remark|Instance|Set|Module)\b[ \t]+([\w']+)", src, re.M)]
    out, cites = [], False
    prev = 0
    for i, m in enumerate(starts):
        gap = src[prev:m.start()]
        coms = re.findall(r"\(\*.*?\*\)", src[(starts[i-1].end() if i else 0):m.start()], re.S)
        if coms: cites = ".py" in coms[-1] or re.search(r":\d+", coms[-1]) is not None
        end = starts[i+1].start() if i + 1 < len(starts) else len(src)
        if (cites or always) and m.group(1) in ("Definition", "Fixpoint", "Function", "Let"):
            out.append((m.group(2), m.start(), end))
    return out

def muts(fn, src):
    masked = MASK.sub(lambda m: " " * len(m.group()) if m.group()[0] == "(" else '"' + "_" * (len(m.group()) - 2) + '"', src)
    for name, a, b in definitions(src, fn in ("CsvReader.v", "PyModule.v")):
        body = masked[a:b]
        k = body.find(":=")
        if k < 0: continue
        k += 2
        seen = set()
        for rx, news in RULES:
            for m in re.finditer(rx, body[k:]):
                p, q = a + k + m.start(), a + k + m.end()
                old = src[p:q]
                for n in news:
                    if n is None:
                        v = int(old, 0)
                        n = (hex(v + 1) if old.startswith("0x") else str(v + 1))
                    if n == "IF":
                        # negate: if (negb (cond))
                        t = re.search(r"\bthen\b", masked[q:b])
                        if not t: continue
                        c = src[q:q + t.start()].strip()
                        if " is " in c or "match" in c or " as " in c: continue
                        edit = (p, q + t.start(), "if negb (%s) " % c)
                    else: edit = (p, q, n)
                    line = src.count("\n", 0, p) + 1
                    ls = src.rfind("\n", 0, p) + 1; le = src.find("\n", q); le = len(src) if le < 0 else le
                    yield dict(file=fn, definition=name, start=edit[0], stop=edit[1], new=edit[2], old=src[edit[0]:edit[1]], line=line,
                               before=src[ls:le].strip())

def main():
    th, out = sys.argv[1:3]
    files = sys.argv[3:] or [f + ".v" for f in FILES]
    res = []
    for f in files:
        src = open(os.path.join(th, f)).read()
        n = len(res)
        res += list(muts(f, src))
        print(f, len(res) - n, "mutations,", len(definitions(src)), "definitions")
    json.dump(res, open(out, "w"), indent=0)
    print(len(res))
main()
