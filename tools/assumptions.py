#!/usr/bin/env python3
"""Prints the assumptions of every theorem of MANIFEST.json (needs a built rocq/) and writes them into
DESIGN.md between the markers."""
import glob, json, os, re, subprocess, tempfile
root = os.path.abspath(os.path.join(os.path.dirname(os.path.abspath(__file__)), ".."))
where = {}
for f in sorted(glob.glob(os.path.join(root, "rocq", "theories", "P_*.v"))):
    for m in re.finditer(r"^\s*Theorem\s+(C\d\d+_\w+)", open(f).read(), re.M):
        where[m.group(1)] = os.path.basename(f)[:-2]
names = [t for c in json.load(open(os.path.join(root, "MANIFEST.json")))["claims"] for t in c["theorems"]]
d = tempfile.mkdtemp()
src = os.path.join(d, "pa.v")
with open(src, "w") as f:
    for m in sorted(set(where[n] for n in names)):
        f.write(f"From Verif Require {m}.\n")
    for n in names:
        f.write(f"Print Assumptions {where[n]}.{n}.\n")
out = subprocess.run(["coqc", "-Q", os.path.join(root, "rocq", "theories"), "Verif", src], capture_output=True, text=True)
assert out.returncode == 0, out.stderr
blocks = re.split(r"^(?=Axioms:|Closed under the global context)", out.stdout, flags=re.M)[1:]
assert len(blocks) == len(names), (len(blocks), len(names))
groups = {}
for n, b in zip(names, blocks):
    ax = tuple(sorted(set(re.findall(r"^([A-Za-z_][\w.']*)(?: :|$)", b, re.M)) - {"Axioms", "Closed"}))
    groups.setdefault(ax, []).append(n)
lines = []
for ax, ns in sorted(groups.items(), key=lambda x: (len(x[0]), x[0])):
    lines.append("* " + (", ".join(f"`{a}`" for a in ax) if ax else "**no axioms** (closed under the global context)") + f" — {len(ns)} theorems:")
    lines.append("  " + ", ".join(f"`{n}`" for n in ns))
p = os.path.join(root, "DESIGN.md")
s = open(p).read()
a, b = "<!-- assumptions begin -->", "<!-- assumptions end -->"
i, j = s.index(a) + len(a), s.index(b)
open(p, "w").write(s[:i] + "\n" + "\n".join(lines) + "\n" + s[j:])
print({ax: len(ns) for ax, ns in groups.items()})
