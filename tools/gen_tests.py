#!/usr/bin/env python3
"""Copy the expectations of /repo/tests into rocq/theories/Data_Tests.v.

The test modules are parsed, not run: the tables of pytest.mark.parametrize and the
enumeration requests are evaluated here with a small evaluator."""
import ast, fractions, os

ROOT = os.path.dirname(os.path.dirname(os.path.abspath(__file__)))
TESTS = "/repo/tests"

class Set:
    def __init__(self, coq): self.coq = coq

def coq_set(node):
    if isinstance(node, ast.BinOp):
        op = {ast.Sub: "SSub", ast.BitOr: "SOr", ast.BitAnd: "SAnd", ast.BitXor: "SXor"}[type(node.op)]
        return "(%s %s %s)" % (op, coq_set(node.left), coq_set(node.right))
    assert isinstance(node, ast.Call) and node.func.id == "UnicodeSet" and len(node.args) == 1
    a = node.args[0]
    if isinstance(a, ast.Call) and a.func.id == "range":
        return "(SRange %d %d)" % tuple(ev(x) for x in a.args)
    return "(SInt %d)" % ev(a)

def has_set(node):
    return any(isinstance(n, ast.Call) and getattr(n.func, "id", "") == "UnicodeSet" for n in ast.walk(node))

def ev(node):
    if isinstance(node, ast.Constant): return node.value
    if isinstance(node, (ast.BinOp, ast.Call)) and has_set(node): return Set(coq_set(node))
    if isinstance(node, ast.List): return [ev(x) for x in node.elts]
    if isinstance(node, ast.Tuple): return tuple(ev(x) for x in node.elts)
    if isinstance(node, ast.Call):
        f = {"chr": chr, "ord": ord}[node.func.id]
        return f(*[ev(x) for x in node.args])
    if isinstance(node, ast.BinOp):
        l, r = ev(node.left), ev(node.right)
        if isinstance(node.op, ast.Div): return fractions.Fraction(l, r)
        return {ast.Add: lambda: l + r, ast.Sub: lambda: l - r}[type(node.op)]()
    if isinstance(node, ast.Name): return NAMES[node.id]
    raise ValueError(ast.dump(node))

NAMES = {"U_UNICODE_CHAR_NAME": 0, "U_EXTENDED_CHAR_NAME": 2, "U_CHAR_NAME_ALIAS": 3}

def tables(f):
    out = {}
    for st in ast.parse(open(os.path.join(TESTS, f)).read()).body:
        if isinstance(st, ast.Assign) and isinstance(st.value, ast.List):
            out[st.targets[0].id] = ev(st.value)
    return out

def calls(f, name):
    """the arguments of all calls of a function, start first"""
    out = []
    for n in ast.walk(ast.parse(open(os.path.join(TESTS, f)).read())):
        if isinstance(n, ast.Call) and getattr(n.func, "id", "") == name:
            kw = {k.arg: ev(k.value) for k in n.keywords}
            out.append(tuple([ev(a) for a in n.args] + [kw[k] for k in ("start", "limit") if k in kw]))
    return out

def cp(s):
    assert len(s) == 1
    return str(ord(s))
def s_(s): return '"%s"' % s
def codes(s): return "[%s]" % "; ".join(str(ord(c)) for c in s)
def opt(f, v): return "None" if v is None else "Some %s" % f(v)

W = []
def emit(name, ty, rows):
    W.append("Definition %s : list %s := [\n  %s].\n" % (name, ty, ";\n  ".join(rows)))

c = tables("test_charProps.py")
pair = lambda f, g: lambda r: "(%s, %s)" % (f(r[0]), g(r[1]))
for n in ("gcTests", "scriptTests"):
    emit(n, "(Z * string)", map(pair(cp, s_), c[n]))
num = lambda v: "(%d, %d)" % (v.numerator, v.denominator) if isinstance(v, fractions.Fraction) else "(%d, 1)" % v
emit("numericValueTests", "(Z * (Z * Z))", map(pair(cp, num), c["numericValueTests"]))
for n in ("alphaRanges", "whitespaceChars", "hexDigits"):
    emit(n, "setexp", [x.coq for x in c[n]])
emit("ageTests", "(Z * list Z)", map(pair(cp, lambda v: "[%s]" % "; ".join(map(str, v))), c["ageTests"]))
for n in ("gcEnumTest", "blockEnumTest", "scriptEnumTest", "emojiEnumTest"):
    emit(n, "(Z * Z)", ["(%d, %d)" % r for r in calls("test_charProps.py", n)])
b = tables("test_bidiProps.py")
for n in ("charDirections", "joiningTypeTests", "joiningGroupTests"):
    emit(n, "(Z * string)", map(pair(cp, s_), b[n]))
for n in ("mirroredPairs", "pairedBrackets"):
    emit(n, "(Z * Z)", map(pair(cp, cp), b[n]))
k = tables("test_caseProps.py")
for n in ("toLower", "toUpper", "toTitle"):
    emit(n + "Tests", "(Z * Z)", map(pair(cp, cp), k[n + "Tests"]))
for n in ("toFullLower", "toFullUpper", "toFullTitle"):
    emit(n + "Tests", "(Z * list Z)", map(pair(cp, codes), k[n + "Tests"]))
u = tables("test_utilities.py")
emit("highBitTests", "(Z * option Z)", map(pair(str, lambda v: opt(str, v)), u["highBitTests"]))
emit("surrogateTests", "(Z * Z * Z)", ["(%d, %d, %d)" % r for r in u["surrogateTests"]])
n2 = tables("test_normalizer2.py")
for n in ("nfcTests", "nfcRawTests"):
    emit(n, "(Z * option (list Z))", map(pair(str, lambda v: opt(lambda w: codes("".join(w)), v)), n2[n]))
cn = tables("test_charNames.py")["charNames"]
emit("extendedNames", "(Z * string)", ["(%s, %s)" % (cp(r[0]), s_(r[1])) for r in cn if r[2] == 2])
emit("hangulNames", "(Z * string)", ["(%s, %s)" % (cp(r[0]), s_(r[1])) for r in cn if r[1].startswith("HANGUL SYL")])
emit("hexNames", "(Z * string)", ["(%s, %s)" % (cp(r[0]), s_(r[1])) for r in cn if "IDEOGRAPH-" in r[1]])
# the calls of test_addRemove, with the pairs expected after them
ops, cur = [], None
for st in ast.parse(open(os.path.join(TESTS, "test_unicodeSet.py")).read()).body:
    if isinstance(st, ast.FunctionDef) and st.name == "test_addRemove":
        for x in st.body:
            if isinstance(x, ast.Assign): ops.append("SetTo %s" % coq_set(x.value))
            elif getattr(x.value.func, "id", "") == "_expectPairs": ops.append("Expect %s %d" % (codes(ev(x.value.args[1])), ev(x.value.args[2])))
            else: ops.append({"removeRange": "Remove", "addRange": "AddR", "add": "Add"}[x.value.func.attr] + "".join(" %d" % ev(a) for a in x.value.args))
emit("addRemove", "setop", ops)

with open(os.path.join(ROOT, "rocq/theories/Data_Tests.v"), "w") as g:
    g.write("(** * The expectations of /repo/tests, written by tools/gen_tests.py *)\n"
            "From Coq Require Import ZArith List String.\nImport ListNotations.\nOpen Scope string_scope.\nOpen Scope list_scope.\nOpen Scope Z_scope.\n\n"
            "(** expressions of sets: UnicodeSet(range(a, b)), UnicodeSet(a), -, |, &, ^ *)\n"
            "Inductive setexp := SRange (a b : Z) | SInt (a : Z) | SSub (x y : setexp) | SOr (x y : setexp) | SAnd (x y : setexp) | SXor (x y : setexp).\n"
            "(** the statements of test_addRemove *)\n"
            "Inductive setop := SetTo (x : setexp) | Remove (a b : Z) | AddR (a b : Z) | Add (a : Z) | Expect (pairs : list Z) (size : Z).\n\n")
    g.write("\n".join(W))
