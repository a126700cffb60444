#!/usr/bin/env python3
"""Run the edits of automut.py against the proofs.

usage: autorun.py BASE EDITS.json OUT.jsonl WORKER WORKERS

BASE is a built copy of /verif/rocq outside /verif.  Each edit is made in a copy, and the
files that depend on the edited one are compiled, cheapest first, until the proof of a
lemma fails on which property theorems rest (by the .glob files).  Failing examples, and
failing lemmas on which no property theorem rests, are admitted.  If everything compiles, the edit survived.
"""
import collections, json, os, re, shutil, subprocess, sys, time
base, efile, out = sys.argv[1:4]
w, ws = int(sys.argv[4]), int(sys.argv[5])
work = "%s.work%d" % (out, w)
LIMIT, ONE = 2400, 700
KEEP_OUT = {"RepoTests", "Data_Tests"}

deps = collections.defaultdict(set)
for l in open(os.path.join(base, ".Makefile.d")):
    m = re.match(r"theories/(\w+)\.vo .*?: (.*)", l)
    if m: deps[m.group(1)] |= {re.sub(r".*/(\w+)\.vo", r"\1", x) for x in m.group(2).split() if x.endswith(".vo") and x.startswith("theories/")}
def dependents(f):
    r, n = {f}, 0
    while len(r) != n:
        n = len(r)
        r |= {g for g in deps if deps[g] & r}
    return r - KEEP_OUT

# which lemma uses which
uses, kind = collections.defaultdict(set), {}
for fn in os.listdir(os.path.join(base, "theories")):
    if not fn.endswith(".glob"): continue
    mod, cur = fn[:-5], None
    for l in open(os.path.join(base, "theories", fn)):
        p = l.split()
        if not p: continue
        if p[0] in ("prf", "def", "ind", "rec", "scheme", "inst", "constr", "proj", "var", "coe") and len(p) >= 4:
            if p[0] in ("prf", "def", "ind", "rec", "inst"): cur = (mod, p[3]); kind[cur] = p[0]
        elif l[0] == "R" and len(p) >= 4 and cur:
            lib = p[1]
            if lib.startswith("Verif."): uses[(lib[6:], p[3].split(".")[-1])].add(cur)
def resting(mod, name):
    seen, todo = set(), [(mod, name)]
    while todo:
        x = todo.pop()
        if x in seen: continue
        seen.add(x)
        todo += uses[x]
    return sorted(n for m, n in seen if m.startswith("Prop_") and re.match(r"C\d+_", n) and not n.endswith("_case"))

STMT = re.compile(r"^[ \t]*(?:Local |Global |#\[[^\]]*\] *)*(Lemma|Theorem|Corollary|Example|Fact|Remark|Definition|Fixpoint|Inductive|Record|Instance|Ltac|Notation|Section|End|Check|Print|Variable|Variables|Hypothesis|Context|Let|CoFixpoint|Eval|Compute|From|Import|Open|Module)\b[ \t]*([A-Za-z0-9_']*)", re.M)
using = {}
for f in os.listdir(os.path.dirname(os.path.abspath(base))):
    if f.startswith("sug_"):
        txt = open(os.path.join(os.path.dirname(os.path.abspath(base)), f)).read()
        for m in re.finditer(r"The proof of (\S+)\s+should start with one of the following commands?:\s*Proof using([^.]*)\.", txt):
            using[(f[4:-4], m.group(1))] = m.group(2).strip()

def locate(fn, line, char):
    src = open(os.path.join(work, "theories", fn), "rb").read()
    pos = sum(len(l) + 1 for l in src.split(b"\n")[:line - 1]) + char
    text = src.decode("utf-8"); pos = len(src[:pos].decode("utf-8", "ignore"))
    last = None
    for m in STMT.finditer(text):
        if m.start() > pos: break
        last = m
    return text, pos, last
def admit(fn, text, pos, last):
    p = re.compile(r"\bProof\b[^.]*\.").search(text, last.end())
    q = re.compile(r"\b(Qed|Defined)\.").search(text, p.end()) if p else None
    if not q or not (p.start() <= pos <= q.end()): return False
    u = using.get((fn, last.group(2)))
    text = text[:p.start()] + ("Proof using %s. Admitted." % u if u is not None else "Proof. Admitted.") + text[q.end():]
    open(os.path.join(work, "theories", fn), "w").write(text)
    return True

tfile = os.path.join(os.path.dirname(os.path.abspath(out)), "times.json")
try: times = json.load(open(tfile))
except Exception: times = {}
def cost(f):
    return times.get(f) or os.path.getsize(os.path.join(base, "theories", f + ".v")) / 3000.0

shutil.rmtree(work, ignore_errors=True)
subprocess.check_call(["cp", "-a", base, work])
edits = json.load(open(efile))
done = set()
if os.path.exists(out):
    done = {json.loads(l)["index"] for l in open(out)}
for n, e in enumerate(edits):
    if n % ws != w or n in done or e.get("skip"): continue
    f0 = e["file"][:-2]
    t0 = time.time()
    path = os.path.join(work, "theories", e["file"])
    src = open(path).read()
    assert src[e["start"]:e["stop"]] == e["old"], e
    open(path, "w").write(src[:e["start"]] + e["new"] + src[e["stop"]:])
    todo = dependents(f0)
    touched, changed, admitted = set(), {e["file"]}, []
    result, where = "survived", None
    while todo and result == "survived":
        if time.time() - t0 > LIMIT: result = "timeout"; break
        ready = [f for f in todo if not (deps[f] & todo)]
        f = min(ready, key=cost)
        touched.add(f)
        t1 = time.time()
        try:
            r = subprocess.run(["timeout", str(ONE), "coqc", "-q", "-Q", "theories", "Verif", "theories/%s.v" % f], cwd=work, stdout=subprocess.PIPE, stderr=subprocess.STDOUT, text=True)
        except Exception as ex:
            result = "error"; break
        if r.returncode == 124: result = "timeout"; where = f; break
        if r.returncode == 0:
            times[f] = time.time() - t1; todo.discard(f); continue
        m = re.findall(r'File "\./theories/([^"]+)", line (\d+), characters (\d+)-\d+:\s*\n(?:In |The |Error)', r.stdout)
        if not m: result = "error"; where = r.stdout[-300:]; break
        fn, l, c = m[-1]
        text, pos, last = locate(fn, int(l), int(c))
        if last is None or last.group(1) not in ("Lemma", "Theorem", "Corollary", "Example", "Fact", "Remark"):
            result = "rejected" if f == f0 else "killed"; where = "%s:%s %s" % (fn, l, last and last.group(2)); break
        rest = resting(f, last.group(2)) if last.group(1) != "Example" or not f.startswith("Prop_") else []
        if last.group(1) == "Theorem" and f.startswith("Prop_"): rest = [last.group(2)]
        if rest:
            result = "killed"; where = f + "." + last.group(2); e["theorems"] = rest; break
        if not admit(fn, text, pos, last): result = "error"; where = f + "." + last.group(2); break
        changed.add(fn); admitted.append(f + "." + last.group(2))
    rec = dict(index=n, file=e["file"], line=e["line"], definition=e["definition"], before=e["before"], old=e["old"], new=e["new"], result=result, where=where,
               theorems=e.get("theorems", []), admitted=admitted, seconds=round(time.time() - t0))
    open(out, "a").write(json.dumps(rec) + "\n")
    print(n, e["definition"], repr(e["old"]), "->", repr(e["new"]), result, where, rec["seconds"], flush=True)
    for fn in changed: shutil.copy2(os.path.join(base, "theories", fn), os.path.join(work, "theories", fn))
    for f in touched:
        for x in (".vo", ".vok", ".vos", ".glob"):
            b = os.path.join(base, "theories", f + x)
            if os.path.exists(b): shutil.copy2(b, os.path.join(work, "theories", f + x))
    try:
        old = json.load(open(tfile))
    except Exception: old = {}
    old.update(times)
    json.dump(old, open(tfile + str(w), "w")); os.replace(tfile + str(w), tfile)
