#!/usr/bin/env python3
"""Regenerate MANIFEST.json: theorem names are read from the P_*.v files,
statuses and notes from tools/status.json."""
import glob, json, os, re
root = os.path.dirname(os.path.dirname(os.path.abspath(__file__)))
status = json.load(open(os.path.join(root, "tools", "status.json")))
thms = {}
for path in sorted(glob.glob(os.path.join(root, "rocq/theories/P_*.v"))):
    for m in re.finditer(r"^ *Theorem ((C\d\d+)_\w+)", open(path).read(), re.M):
        thms.setdefault(m.group(2), []).append(m.group(1))
claims = []
for line in open(os.path.join(root, "properties.jsonl")):
    cid = json.loads(line)["id"]
    if cid in thms:
        st, note = status[cid]
        claims.append({"property": cid, "status": st, "theorems": thms[cid], "note": note})
    elif cid in status:
        st, note = status[cid]
        claims.append({"property": cid, "status": st, "theorems": [], "note": note})
    else:
        print("no claim yet:", cid)
json.dump({"claims": claims}, open(os.path.join(root, "MANIFEST.json"), "w"), indent=1)
