#!/usr/bin/env python3
# Writes MANIFEST.json: the theorems named <property>_... in rocq/theories/Prop*.v
# are grouped by property; the notes below explain the partial ones.
import glob, json, os, re
root = os.path.dirname(os.path.dirname(os.path.abspath(__file__)))
NOTES = {}
PARTIAL = set()
def note(pid, text, partial=False):
    NOTES[pid] = text
    if partial: PARTIAL.add(pid)

exec(open(os.path.join(root, "tools", "notes.py")).read())

thms = {}
for f in sorted(glob.glob(os.path.join(root, "rocq/theories/Prop*.v"))):
    for m in re.finditer(r"^Theorem (C\d+)_(\w+)", open(f).read(), re.M):
        thms.setdefault(m.group(1), []).append(m.group(1) + "_" + m.group(2))
claims = []
for line in open(os.path.join(root, "properties.jsonl")):
    d = json.loads(line)
    t = thms.get(d["id"], [])
    partial = d["id"] in PARTIAL or any(x.endswith("_partial") for x in t)
    if not t and d["id"] not in NOTES:
        continue
    status = "not_applicable" if not t else ("partial" if partial else "proved")
    claims.append(dict(property=d["id"], status=status, theorems=t,
                       note=NOTES.get(d["id"], d["title"])))
json.dump(dict(claims=claims), open(os.path.join(root, "MANIFEST.json"), "w"), indent=1)
print(len(claims), "claims;", sum(c["status"] == "proved" for c in claims), "proved,",
      sum(c["status"] == "partial" for c in claims), "partial;",
      sum(len(c["theorems"]) for c in claims), "theorems")
