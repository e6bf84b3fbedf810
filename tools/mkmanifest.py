"""Rebuild MANIFEST.json from the theorem names in rocq/theories/Prop_*.v and tools/notes.json."""
import glob
import json
import os
import re

root = os.path.dirname(os.path.dirname(os.path.abspath(__file__)))
ids = [json.loads(l)["id"] for l in open(os.path.join(root, "properties.jsonl")) if l.strip()]
thms = {i: [] for i in ids}
for f in sorted(glob.glob(os.path.join(root, "rocq/theories/Prop_*.v"))):
    for m in re.finditer(r"^(?:Theorem|Lemma|Corollary)\s+((C\d+)_\w+)", open(f).read(), re.M):
        thms[m.group(2)].append(m.group(1))
notes = json.load(open(os.path.join(root, "tools/notes.json")))
claims = []
for i in ids:
    ts = thms[i]
    n = notes.get(i, {})
    if isinstance(n, str):
        n = {"note": n}
    status = n.get("status")
    if status is None:
        status = "partial" if (not ts or any("_partial" in t or "_refuted" in t for t in ts)) else "proved"
    claims.append({"property": i, "status": status, "theorems": ts,
                   "note": n.get("note", "" if ts else "Not yet modelled.")})
json.dump({"claims": claims}, open(os.path.join(root, "MANIFEST.json"), "w"), indent=1)
for c in claims:
    print(c["property"], c["status"], len(c["theorems"]))
