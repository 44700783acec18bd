#!/usr/bin/env python3
"""Writes MANIFEST.json from properties.jsonl and the theorem names found in
rocq/theories/Properties*.v. A property with a _refuted or _partial theorem is
partial, unless the statement itself says what is refuted (STATED); one without
theorems is left out."""
import glob, json, os, re
root = os.path.dirname(os.path.dirname(os.path.abspath(__file__)))
notes = json.load(open(os.path.join(root, "tools", "notes.json")))
thms = {}
for f in sorted(glob.glob(os.path.join(root, "rocq", "theories", "Properties*.v"))):
    for m in re.finditer(r"^\s*Theorem (C(\d+)_\w+)", open(f).read(), re.M):
        thms.setdefault("C" + m.group(2), []).append(m.group(1))
# The statement names the premise, and that the claim is false without it.
STATED = {"C114", "C119", "C120", "C121", "C122", "C124", "C125", "C126", "C127", "C128", "C129", "C131", "C133", "C134", "C135"}
claims = []
for line in open(os.path.join(root, "properties.jsonl")):
    d = json.loads(line)
    t = thms.get(d["id"], [])
    if not t:
        print("no theorem for", d["id"])
        continue
    partial = any(x.endswith("_refuted") or x.endswith("_partial") for x in t) and d["id"] not in STATED
    note = notes.get(d["id"])
    if note is None:
        if partial:
            print("no note for", d["id"])
        note = "Holds as stated."
    claims.append({"property": d["id"], "status": "partial" if partial else "proved", "theorems": t, "note": note})
json.dump({"claims": claims}, open(os.path.join(root, "MANIFEST.json"), "w"), indent=1)
print(len(claims), "claims")
