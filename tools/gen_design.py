#!/usr/bin/env python3
# Writes ../DESIGN.md from design_head.md, plan.json, properties.jsonl and MANIFEST.json.
import json, os
here = os.path.dirname(os.path.abspath(__file__))
P = lambda *x: os.path.join(here, *x)
plan = json.load(open(P("plan.json")))
man = {c["property"]: c for c in json.load(open(P("..", "MANIFEST.json")))["claims"]}
out = [open(P("design_head.md")).read(), "| id | property | modelled as | proved how | theorems |", "|----|----------|-------------|------------|----------|"]
for l in open(P("..", "properties.jsonl")):
    o = json.loads(l)
    i = o["id"]
    c = man.get(i, {"theorems": [], "status": "not proved"})
    m, h = plan[i]
    out.append("| %s | %s | %s | %s | %s |" % (i, o["title"], m, h, " ".join("`%s`" % t for t in c["theorems"])))
out.append("")
out.append("Notes on each claim, including what exactly is refuted, are in `MANIFEST.json`.")
open(P("..", "DESIGN.md"), "w").write("\n".join(out) + "\n")
print("missing plan:", [i for i in man if i not in plan])
