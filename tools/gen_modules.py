#!/usr/bin/env python3
"""Write rocq/theories/Data_Modules.v from the modules of constants in /repo/UnicodeData.

The files are parsed as text (ast.parse); nothing of them is run.  Of CaseProps.py and
BidiProps.py, which also have functions, only the constants UCASE_... and UBIDI_... are
copied.
"""
import ast, os

REPO = "/repo/UnicodeData"
OUT = os.path.join(os.path.dirname(os.path.abspath(__file__)), "..", "rocq", "theories")
MODS = ["uchar_h", "uscript_h", "ucase_h", "uprops_h", "Blocks", "Boundaries", "CharDirection", "Characters",
        "DecompositionType", "EastAsianWidth", "GeneralCategories", "JoiningTypesAndGroups", "LayoutTypes",
        "Scripts", "UCDTypeDictionaries", "CaseProps", "BidiProps"]
ONLY = {"CaseProps": "UCASE_", "BidiProps": "UBIDI_"}
OPS = {ast.Add: "OpAdd", ast.Sub: "OpSub", ast.Mult: "OpMul", ast.BitOr: "OpOr", ast.BitAnd: "OpAnd",
       ast.LShift: "OpShl", ast.RShift: "OpShr"}

def lit(s):
    assert s.isascii() and '"' not in s
    return '(lit "%s")' % s

def expr(n):
    if isinstance(n, ast.Constant) and type(n.value) is int: return "(EInt %d)" % n.value
    if isinstance(n, ast.Constant) and type(n.value) is str: return "(EStr %s)" % lit(n.value)
    if isinstance(n, ast.Name): return "(EName %s)" % lit(n.id)
    if isinstance(n, ast.UnaryOp) and isinstance(n.op, ast.USub): return "(ENeg %s)" % expr(n.operand)
    if isinstance(n, ast.BinOp): return "(EBin %s %s %s)" % (OPS[type(n.op)], expr(n.left), expr(n.right))
    if isinstance(n, ast.Tuple): return "(ETuple [%s])" % "; ".join(map(expr, n.elts))
    if isinstance(n, ast.Dict):
        return "(EDict [\n  %s])" % ";\n  ".join("(%s, %s)" % (expr(k), expr(v)) for k, v in zip(n.keys, n.values))
    if isinstance(n, ast.Call) and len(n.args) == 1 and not n.keywords: return "(ECall %s %s)" % (expr(n.func), expr(n.args[0]))
    raise ValueError(ast.dump(n))

v = ["(** * The modules of constants of UnicodeData.", "",
     "    Written by tools/gen_modules.py, which copies the statements of each file in order",
     "    (of CaseProps.py and BidiProps.py only the constants).  [X_env] is the module after import. *)",
     "From Coq Require Import ZArith List String.", "From Verif Require Import Py Dict CharNames PyModule.",
     "Import ListNotations.", "Open Scope Z_scope.", "Open Scope string_scope.", "",
     "Definition ok_env (r : res (dict pval)) : dict pval := match r with Ok m => m | Err _ => [] end.", ""]
for mod in MODS:
    src = open("%s/%s.py" % (REPO, mod)).read()
    t = ast.parse(src)
    out, first, last = [], None, None
    for n in t.body:
        if mod in ONLY and not (isinstance(n, ast.Assign) and n.targets[0].id.startswith(ONLY[mod])): continue
        if isinstance(n, ast.Expr) and isinstance(n.value, ast.Constant): continue   # docstring
        if isinstance(n, ast.Assign):
            assert len(n.targets) == 1
            out.append("  SAssign %s %s" % (lit(n.targets[0].id), expr(n.value)))
        elif isinstance(n, ast.ImportFrom):
            assert n.level == 1 and n.names[0].name == "*"
            out.append("  SImport %s_env" % n.module)
        elif isinstance(n, ast.FunctionDef):
            assert ast.unparse(n).split(":\n")[1].strip() == "return 1 << x", ast.unparse(n)
            out.append("  SDefMask %s" % lit(n.name))
        else: raise ValueError(ast.dump(n))
        first = first or n.lineno; last = n.end_lineno
    v.append("(** %s.py:%d-%d *)" % (mod, first, last))
    v.append("Definition %s_src : list stmt := [\n%s]." % (mod, ";\n".join(out)))
    v.append("Definition %s_env : dict pval := Eval vm_compute in ok_env (exec %s_src)." % (mod, mod))
    v.append("Lemma %s_is : exec %s_src = Ok %s_env." % (mod, mod, mod))
    v.append("Proof. vm_cast_no_check (eq_refl (Ok %s_env)). Qed." % mod)
    v.append("")
open(os.path.join(OUT, "Data_Modules.v"), "w").write("\n".join(v))
