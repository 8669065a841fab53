#!/usr/bin/env python3
"""Write MANIFEST.json: theorems named Cnn_* are collected from rocq/theories,
status and note come from tools/status.json."""
import glob, json, os, re
root = os.path.dirname(os.path.dirname(os.path.abspath(__file__)))
status = json.load(open(os.path.join(root, "tools/status.json")))
props = [json.loads(l)["id"] for l in open(os.path.join(root, "properties.jsonl"))]
thms = {}
for f in sorted(glob.glob(os.path.join(root, "rocq/theories/*.v"))):
    for m in re.finditer(r"^(?:Theorem|Corollary) ((C\d\d\d?)_\w+)", open(f).read(), re.M):
        thms.setdefault(m.group(2), []).append(m.group(1))
claims = []
for p in props:
    st, note = status.get(p, ["partial", "model not finished yet"])
    claims.append({"property": p, "status": st, "theorems": thms.get(p, []), "note": note})
    if not thms.get(p):
        print("no theorems yet:", p)
json.dump({"claims": claims}, open(os.path.join(root, "MANIFEST.json"), "w"), indent=1)
