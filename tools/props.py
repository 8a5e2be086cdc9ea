#!/usr/bin/env python3
"""Single source for properties.jsonl and MANIFEST.json (run from /verif)."""
import json, re, os, sys
P = []
def prop(id, title, statement, quantifier, why, anchors, theorems=(), status="proved", note=""):
    P.append(dict(id=id, title=title, statement=statement, quantifier=quantifier,
                  why_tests_cant=why, anchors=anchors, _th=list(theorems), _st=status, _note=note))

B = "pyogp/lib/base/"
exec(open(os.path.join(os.path.dirname(__file__), "proplist.py")).read())

import glob
TH = {}
for fn in sorted(glob.glob(os.path.join(os.path.dirname(__file__), "../rocq/theories/Prop_*.v"))):
    for m in re.finditer(r"^Theorem ((C\d\d\d?)_\w+)", open(fn).read(), re.M):
        TH.setdefault(m.group(2), []).append(m.group(1))
for p in P:
    p["_th"] = TH.get(p["id"], [])
    if not p["_th"]:
        p["_st"], p["_note"] = "partial", "no theorem yet"
    elif any(t.endswith("_partial") for t in p["_th"]):
        p["_st"] = "partial"

root = os.path.join(os.path.dirname(__file__), "..")
with open(os.path.join(root, "properties.jsonl"), "w") as f:
    for p in P:
        f.write(json.dumps({k: v for k, v in p.items() if not k.startswith("_")}) + "\n")
if "--manifest" in sys.argv:
    with open(os.path.join(root, "MANIFEST.json"), "w") as f:
        json.dump({"claims": [{"property": p["id"], "status": p["_st"], "theorems": p["_th"], "note": p["_note"]} for p in P]}, f, indent=1)
        f.write("\n")
print(len(P), "properties")
