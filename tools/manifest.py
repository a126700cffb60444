"""Rebuild MANIFEST.json: theorem names are collected from rocq/theories/Prop_*.v,
status and notes come from the table below."""
import glob, json, os, re

ROOT = os.path.dirname(os.path.dirname(os.path.abspath(__file__)))

NOTES = json.load(open(os.path.join(ROOT, "tools", "notes.json")))

names = {}
for f in sorted(glob.glob(os.path.join(ROOT, "rocq/theories/Prop_*.v"))):
    for m in re.finditer(r"^Theorem (C(\d\d+)_\w+)", open(f).read(), re.M):
        names.setdefault("C" + m.group(2), []).append(m.group(1))

claims = []
for line in open(os.path.join(ROOT, "properties.jsonl")):
    pid = json.loads(line)["id"]
    th = names.get(pid, [])
    note = NOTES.get(pid, "")
    if not th:
        status = "partial" if not note.startswith("N/A") else "not_applicable"
        note = note or "no theorem yet"
    else:
        status = "partial" if any(t.endswith(("_partial", "_refuted")) for t in th) else "proved"
    claims.append({"property": pid, "status": status, "theorems": th, "note": note})
json.dump({"claims": claims}, open(os.path.join(ROOT, "MANIFEST.json"), "w"), indent=1)
for c in claims:
    print(c["property"], c["status"], len(c["theorems"]))
