#!/usr/bin/env python3
"""Test the theorems against wrong programs.

usage: mutate.py BASE MUTATIONS.json OUT.jsonl [start [stop]]

BASE is a built copy of /verif/rocq outside /verif, with the output of
`coqc -set "Suggest Proof Using"` of each file in BASE/../sug_<file>.txt.  For each
mutation the model definition is edited in a fresh copy and everything is rebuilt.
A lemma whose proof fails is admitted and the build repeated, so that at the end
Print Assumptions shows which property theorems rest on a failed proof.  Only the
property files named in the mutation's "props" are built.
"""
import json, os, re, shutil, subprocess, sys, time

base, mfile, out = sys.argv[1:4]
muts = json.load(open(mfile))
lo = int(sys.argv[4]) if len(sys.argv) > 4 else 0
hi = int(sys.argv[5]) if len(sys.argv) > 5 else len(muts)
work = out + ".work"
STMT = re.compile(r"^[ \t]*(?:Local |Global |#\[[^\]]*\] *)*(Lemma|Theorem|Corollary|Example|Fact|Remark|Definition|Fixpoint|Inductive|Record|Instance|Ltac|Notation|Section|End|Check|Print|Variable|Variables|Hypothesis|Context|Let|CoFixpoint|Eval|Compute|From|Import|Open|Module)\b[ \t]*([A-Za-z0-9_']*)", re.M)

using = {}
for f in os.listdir(os.path.dirname(os.path.abspath(base))):
    if f.startswith("sug_"):
        txt = open(os.path.join(os.path.dirname(os.path.abspath(base)), f)).read()
        for m in re.finditer(r"The proof of (\S+)\s+should start with one of the following commands?:\s*Proof using([^.]*)\.", txt):
            using[(f[4:-4], m.group(1))] = m.group(2).strip()

def admit(fn, line, char):
    """Admit the lemma of file fn around the position; its name, or None."""
    path = os.path.join(work, "theories", fn)
    src = open(path, "rb").read()
    lines = src.split(b"\n")
    pos = sum(len(l) + 1 for l in lines[:line - 1]) + char
    text = src.decode("utf-8")
    pos = len(src[:pos].decode("utf-8", "ignore"))
    last = None
    for m in STMT.finditer(text):
        if m.start() > pos: break
        last = m
    if last is None or last.group(1) not in ("Lemma", "Theorem", "Corollary", "Example", "Fact", "Remark"):
        return None
    p = re.compile(r"\bProof\b[^.]*\.").search(text, last.end())
    q = re.compile(r"\b(Qed|Defined)\.").search(text, p.end()) if p else None
    if not q or not (p.start() <= pos <= q.end()): return None
    u = using.get((fn, last.group(2)))
    text = text[:p.start()] + ("Proof using %s. Admitted." % u if u is not None else "Proof. Admitted.") + text[q.end():]
    open(path, "w").write(text)
    return last.group(2)

def theorems(fn):
    return re.findall(r"^Theorem (C\d+_\w+)", open(os.path.join(work, "theories", fn)).read(), re.M)

for n in range(lo, hi):
    m = muts[n]
    t0 = time.time()
    shutil.rmtree(work, ignore_errors=True)
    subprocess.check_call(["cp", "-a", base, work])
    path = os.path.join(work, "theories", m["file"])
    src = open(path).read()
    k = src.count(m["old"])
    if k != m.get("count", 1):
        print(n, m["definition"], "OCCURRENCES", k, flush=True); continue
    open(path, "w").write(src.replace(m["old"], m["new"]))
    admitted, blocked = [], []
    while time.time() - t0 < 2400:
        try:
            r = subprocess.run(["make", "-k", "-j2"] + ["theories/%s.vo" % p for p in m["props"]], cwd=work, stdout=subprocess.PIPE, stderr=subprocess.STDOUT, text=True, timeout=2300)
        except subprocess.TimeoutExpired:
            subprocess.run(["pkill", "-f", work]); blocked.append("timeout"); break
        if r.returncode == 0: break
        new = False
        errs = re.findall(r'File "\./theories/([^"]+)", line (\d+), characters (\d+)-\d+:\s*\n(?:In |The |Error)', r.stdout)
        for fn, l, c in dict.fromkeys(errs):
            if fn in blocked: continue
            nm = admit(fn, int(l), int(c))
            if nm is None:
                blocked.append(fn)
            else:
                admitted.append(fn[:-2] + "." + nm); new = True
        if not new: break
    failed, notbuilt = [], []
    names = {a.split(".")[1] for a in admitted}
    for fn in sorted(os.listdir(os.path.join(work, "theories"))):
        if not (fn.startswith("Prop_") and fn.endswith(".v") and fn[:-2] in m["props"]): continue
        ts = theorems(fn)
        if not os.path.exists(os.path.join(work, "theories", fn + "o")) or "timeout" in blocked:
            notbuilt += ts; continue
        if not admitted: continue
        r = subprocess.run(["coqc", "-q", "-Q", "theories", "Verif", "theories/" + fn], cwd=work, stdout=subprocess.PIPE, stderr=subprocess.STDOUT, text=True)
        blocks = re.split(r"(?=^Closed under the global context|^Axioms:)", r.stdout, flags=re.M)[1:]
        pa = re.findall(r"^Print Assumptions (\w+)", open(os.path.join(work, "theories", fn)).read(), re.M)
        for t, b in zip(pa, blocks):
            used = {x.split(".")[-1] for x in re.findall(r"^([\w.']+)(?: :|$)", b, re.M)}
            if used & names: failed.append(t)
        if len(pa) != len(blocks): failed.append("?" + fn)
    rec = dict(index=n, file=m["file"], definition=m["definition"], edit=m["edit"], claim=m["claim"], lemmas_failed=admitted, blocked=blocked,
               theorems_failed=failed, theorems_not_built=notbuilt, seconds=round(time.time() - t0))
    open(out, "a").write(json.dumps(rec) + "\n")
    print(n, m["definition"], "|", m["edit"], "->", len(failed), "failed", len(notbuilt), "not built", "SURVIVED" if not failed and not notbuilt else "", rec["seconds"], "s", flush=True)
