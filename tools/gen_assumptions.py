#!/usr/bin/env python3
"""Fills the list between the marks in DESIGN.md with what Print Assumptions says of each theorem. Needs a finished build."""
import glob, json, os, re, subprocess, tempfile
root = os.path.abspath(os.path.join(os.path.dirname(os.path.abspath(__file__)), ".."))
th = os.path.join(root, "rocq", "theories")
mods = {}
for f in sorted(glob.glob(os.path.join(th, "P_*.v"))):
    names = re.findall(r"^ *(?:Theorem|Corollary) (C\d\d\w*)", open(f).read(), re.M)
    if names: mods[os.path.basename(f)[:-2]] = names
groups = {}
for m, names in mods.items():
    src = "From Verif Require %s.\n" % m + "".join("Print Assumptions Verif.%s.%s.\nCheck (tt : unit).\n" % (m, n) for n in names)
    with tempfile.TemporaryDirectory() as d:
        p = os.path.join(d, "a.v"); open(p, "w").write(src)
        out = subprocess.run(["coqc", "-Q", th, "Verif", p], capture_output=True, text=True)
    assert out.returncode == 0, out.stderr
    parts = re.split(r"^tt *: unit\n|^tt\n *: unit\n", out.stdout, flags=re.M)
    assert len(parts) == len(names) + 1, (m, len(parts), len(names))
    for n, t in zip(names, parts):
        key = () if t.startswith("Closed") else tuple(sorted(x.split(".")[-1] for x in re.findall(r"^([A-Za-z][\w.]*)\s*:", t, re.M) if x != "Axioms"))
        groups.setdefault(key, []).append(n)
text = ""
for key in sorted(groups, key=len):
    text += "* %s (%d): %s\n" % ("no axioms" if not key else ", ".join("`%s`" % k for k in key), len(groups[key]), ", ".join(sorted(groups[key])))
p = os.path.join(root, "DESIGN.md"); t = open(p).read()
a, b = "<!-- assumptions -->\n", "<!-- end -->\n"
i, j = t.index(a) + len(a), t.index(b)
open(p, "w").write(t[:i] + text + t[j:])
print({k: len(v) for k, v in groups.items()})
