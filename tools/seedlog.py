#!/usr/bin/env python3
"""Writes seeded/LOG.jsonl from the results of mutate.py.  usage: seedlog.py RESULTS.jsonl ..."""
import json, re, sys, os
ROOT = os.path.dirname(os.path.dirname(os.path.abspath(__file__)))
HEAD = re.compile(r"^[ ]*(?:Definition|Fixpoint)\s+([A-Za-z0-9_']+)", re.M)
# theorems that were added or strengthened after the run, and remarks
AFTER = {
 "num_any_size": (["C10_other_fields_refused"], "C10 said only which fields are read correctly; the new theorem says that all others are refused"),
 "error_not_set": ([], "C04 is about the type-length reader alone, which does not raise this error; C13 and C27 notice the edit"),
}
out = []; seen = set()
for f in filter(os.path.exists, sys.argv[1:]):
    for l in open(f):
        r = json.loads(l); e = r["entry"]
        if r["name"] in seen: continue
        seen.add(r["name"])
        t = open(f"{ROOT}/rocq/theories/{e['file']}.v").read(); i = t.find(e["old"])
        d = [h.group(1) for h in HEAD.finditer(t) if h.start() <= max(i, 0)]
        tight, note = AFTER.get(r["name"], ([], ""))
        o = {"name": r["name"], "definition": f"{e['file']}.{d[-1] if d else ''}", "edit": {"old": e["old"], "new": e["new"]},
             "breaks": e["breaks"], "claim": e["claim"], "failed": r["failed"], "claims_missed": r["missed"], "tightened": tight}
        if e.get("also"): o["edit"]["also"] = e["also"]
        if note: o["note"] = note
        out.append(o)
with open(ROOT + "/seeded/LOG.jsonl", "w") as g:
    for o in out: g.write(json.dumps(o) + "\n")
print(len(out), [(o["name"], o["claims_missed"]) for o in out if o["claims_missed"]])
