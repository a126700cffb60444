#!/usr/bin/env python3
"""Write seeded/LOG.jsonl from the records of mutate.py.

usage: mklog.py OUT.jsonl... [--auto AUTO.jsonl...]

The records after --auto are from autorun.py.  seeded/auto.json has the theorems tightened for those
that survived, or why the edited program is the same.

seeded/tightened.json maps "definition|edit" to the theorems that were tightened or added
because the edit survived; the first record of such an edit is the one that survived, later
ones are from the repetition.  seeded/decided.json maps "definition|edit" to a note on an edit that
the build does not decide."""
import json, os, sys

ROOT = os.path.dirname(os.path.dirname(os.path.abspath(__file__)))
tight = json.load(open(os.path.join(ROOT, "seeded", "tightened.json")))
auto = json.load(open(os.path.join(ROOT, "seeded", "auto.json")))
decided = json.load(open(os.path.join(ROOT, "seeded", "decided.json")))
args = sys.argv[1:] + ([] if "--auto" in sys.argv else ["--auto"])
hand, machine = args[:args.index("--auto")], args[args.index("--auto") + 1:]
seen = set()
with open(os.path.join(ROOT, "seeded", "LOG.jsonl"), "w") as g:
    for f in hand:
        for line in open(f):
            r = json.loads(line)
            key = "%s|%s" % (r["definition"], r["edit"])
            row = {"definition": "%s:%s" % (r["file"], r["definition"]), "edit": r["edit"], "claim": r["claim"],
                   "failed": r["theorems_failed"], "lemmas_failed": r["lemmas_failed"],
                   "tightened": tight.get(key, []) if key not in seen else []}
            if r["blocked"] == ["timeout"]: row["note"] = "not decided within 25 minutes"
            elif r["blocked"]: row["note"] = "the build stops in " + ", ".join(r["blocked"])
            again = "repeated after tightening" if key in tight else "repeated"
            row["note"] = "; ".join(([again] if key in seen else []) + ([row["note"]] if "note" in row else []) + ([decided[key]] if key in decided else []))
            if not row["note"]: del row["note"]
            seen.add(key)
            g.write(json.dumps(row) + "\n")
    for f in machine:
        for line in open(f):
            r = json.loads(line)
            key = "%s:%s:%d:%s:%s" % (r["file"], r["definition"], r["line"], r["old"], r["new"])
            x = auto.get(key, {}) if key not in seen else {"note": "repeated after tightening"}
            seen.add(key)
            row = {"definition": "%s:%s" % (r["file"], r["definition"]), "edit": "%s for %s in %s" % (r["new"], r["old"], r["before"]),
                   "claim": "what the properties say that use it", "failed": r["theorems"],
                   "lemmas_failed": [r["where"]] if r.get("where") else [], "tightened": x.get("tightened", [])}
            note = ["edit made by tools/automut.py; failed lists the theorems whose proofs rest on the failed lemma"] + ([x["note"]] if "note" in x else []) + (["not decided in time"] if r["result"] == "timeout" else [])
            row["note"] = "; ".join(note)
            g.write(json.dumps(row) + "\n")
