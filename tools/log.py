#!/usr/bin/env python3
"""Turn the output of mutate.py into /verif/seeded/LOG.jsonl, one line per attempt.

usage: log.py NOTES.json OUT.jsonl...   NOTES maps an attempt's id to corrections."""
import json, os, re, sys
here = os.path.dirname(os.path.abspath(__file__))
src = os.path.join(here, "..", "rocq", "theories")
notes = json.load(open(sys.argv[1]))

def definition(file, old):
    text = open(os.path.join(src, file)).read()
    i = text.find(old)
    if i < 0:
        i = text.find(old.strip().split("\n")[0])
    if i < 0:
        return None
    m = None
    for m in re.finditer(r"^\s*(?:Definition|Fixpoint|Inductive|with)\s+([A-Za-z_0-9']+)", text[:i + 30], re.M):
        pass
    return m.group(1) if m else None

rows = []
for f in sys.argv[2:]:
    for line in open(f):
        r = json.loads(line)
        n = notes.get(r["id"], {})
        file = r["file"] if r["file"].endswith(".v") else r["file"] + ".v"
        breaks = n.get("breaks", r["breaks"])
        if n.get("skip"):
            continue
        caught = sorted(set(breaks) & {t.split("_")[0] for t in r["failed_theorems"]} | set(n.get("caught", [])))
        row = {"id": r["id"], "definition": r.get("definition") or definition(file, r["old"]), "file": "rocq/theories/" + file,
               "edit": {"old": r["old"], "new": r["new"]},
               "claim": r["claim"], "properties_broken": breaks,
               "theorems_failed": r["failed_theorems"],
               "lemmas_failed": r["broken_lemmas"],
               "verdict": n.get("verdict") or ("equivalent edit: no claim is broken" if not breaks else
                          "caught" if set(breaks) <= set(caught) else
                          "missed at first"),
               "theorems_tightened": n.get("tightened", [])}
        if "note" in n:
            row["note"] = n["note"]
        rows.append(row)
with open(os.path.join(here, "..", "seeded", "LOG.jsonl"), "w") as out:
    for row in rows:
        out.write(json.dumps(row) + "\n")
print(len(rows), {v: sum(1 for r in rows if r["verdict"] == v) for v in {r["verdict"] for r in rows}})
print([r["id"] for r in rows if r["verdict"] == "missed at first"], [r["id"] for r in rows if not r["definition"]])
