"""Regenerates MANIFEST.json from the theorem names in the P_*.v files."""
import glob
import json
import os
import re

HERE = os.path.dirname(os.path.dirname(os.path.abspath(__file__)))
NOTES = json.load(open(os.path.join(HERE, "tools", "notes.json")))

theorems = {}
for path in sorted(glob.glob(os.path.join(HERE, "rocq", "theories", "P_*.v"))):
    for name in re.findall(r"^Theorem (C\d+_\w+)", open(path).read(), re.M):
        theorems.setdefault(name.split("_")[0], []).append(name)

claims = []
for line in open(os.path.join(HERE, "properties.jsonl")):
    pid = json.loads(line)["id"]
    names = theorems.get(pid, [])
    if not names:
        continue
    weak = any(n.endswith("_partial") or n.endswith("_refuted") for n in names)
    claims.append({"property": pid, "status": "partial" if weak else "proved",
                   "theorems": names, "note": NOTES.get(pid, "")})
json.dump({"claims": claims}, open(os.path.join(HERE, "MANIFEST.json"), "w"), indent=1)
print(len(claims), "claims", sum(c["status"] == "proved" for c in claims), "proved")
