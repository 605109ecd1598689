#!/usr/bin/env python3
# Writes ../MANIFEST.json from the Theorem names Cnn_* in rocq/theories/Prop_*.v plus the
# per-property notes below.
import glob, json, os, re
here = os.path.dirname(os.path.abspath(__file__))
props = [json.loads(l)["id"] for l in open(os.path.join(here, "..", "properties.jsonl"))]
notes = json.load(open(os.path.join(here, "notes.json")))
th = {}
for f in sorted(glob.glob(os.path.join(here, "..", "rocq", "theories", "Prop_*.v"))):
    for m in re.finditer(r"^Theorem\s+([\w']+)", open(f).read(), re.M):
        n = m.group(1)
        for pid in re.findall(r"C\d\d+", n.split("_")[0]):
            th.setdefault(pid, []).append(n)
claims = []
for p in props:
    if p not in th:
        continue
    names = th[p]
    n = notes.get(p, {})
    status = n.get("status") or ("partial" if any(x.endswith("_partial") for x in names) else "proved")
    claims.append({"property": p, "status": status, "theorems": names, "note": n.get("note", "")})
json.dump({"claims": claims}, open(os.path.join(here, "..", "MANIFEST.json"), "w"), indent=1)
print(len(claims), "claims;", "missing:", [p for p in props if p not in th])
