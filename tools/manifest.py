#!/usr/bin/env python3
"""Write MANIFEST.json from the theorems in rocq/theories/Props and the statuses in tools/status.json."""
import json, os, re
root = os.path.dirname(os.path.dirname(os.path.abspath(__file__)))
status = json.load(open(os.path.join(root, "tools/status.json")))
claims = []
for line in open(os.path.join(root, "properties.jsonl")):
    pid = json.loads(line)["id"]
    names = []
    d = os.path.join(root, "rocq/theories/Props")
    for f in sorted(os.listdir(d)):
        if re.fullmatch(pid + r"[A-Za-z_]*\.v", f):
            names += re.findall(r"^Theorem (%s_\w+)" % pid, open(os.path.join(d, f)).read(), re.M)
    if not names and pid not in status:
        continue
    st = status.get(pid, ["proved", ""])
    claims.append({"property": pid, "status": st[0], "theorems": names, "note": st[1]})
json.dump({"claims": claims}, open(os.path.join(root, "MANIFEST.json"), "w"), indent=1)
print(len(claims), "claims,", sum(len(c["theorems"]) for c in claims), "theorems")
