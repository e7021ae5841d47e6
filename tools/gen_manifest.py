#!/usr/bin/env python3
"""Writes /verif/MANIFEST.json from the theorem names in rocq/theories/P_*.v and the notes in tools/notes.json.
Theorems are named C<nn>_<what>; a name containing '_refuted' records a part of the natural claim that is false of the code, which the
statement in properties.jsonl then names as an exception,
'_partial' a theorem that covers only part of its property."""
import json, os, re, glob
root = os.path.join(os.path.dirname(os.path.abspath(__file__)), "..")
props = [json.loads(l) for l in open(os.path.join(root, "properties.jsonl"))]
notes = json.load(open(os.path.join(root, "tools", "notes.json")))
thms = {}
for f in sorted(glob.glob(os.path.join(root, "rocq/theories/P_*.v"))):
    for m in re.finditer(r"^ *(?:Theorem|Corollary) (C\d\d\w*)", open(f).read(), re.M):
        thms.setdefault(m.group(1)[:3], []).append(m.group(1))
claims = []
for p in props:
    i = p["id"]
    n = notes.get(i, {})
    ref = [t for t in thms.get(i, []) if "_refuted" in t]
    st = n.get("status") or ("proved" if thms.get(i) and not any("_partial" in t for t in thms[i]) else "partial")
    auto = "" if "status" in n else ("The statement names the exceptions found in the code; each is proved: " + ", ".join(ref) + "." if ref else "") if thms.get(i) else "not yet modelled"
    claims.append(dict(property=i, status=st, theorems=thms.get(i, []), note=" ".join(x for x in (n.get("note", ""), auto) if x)))
json.dump({"claims": claims}, open(os.path.join(root, "MANIFEST.json"), "w"), indent=1)
print(sum(len(v) for v in thms.values()), "theorems;", [p["id"] for p in props if not thms.get(p["id"])], "without theorems")
