#!/usr/bin/env python3
"""Rewrite the assumptions section of DESIGN.md from Print Assumptions (needs a finished build)."""
import collections, glob, json, os, re, subprocess, tempfile

root = os.path.dirname(os.path.dirname(os.path.abspath(__file__)))
names = []
for c in json.load(open(root + "/MANIFEST.json"))["claims"]:
    names += [t for t in c["theorems"] if t not in names]
mods = {}
for f in glob.glob(root + "/rocq/theories/Props*.v"):
    for t in re.findall(r"^(?:Theorem|Lemma)\s+(\w+)", open(f).read(), re.M):
        mods[t] = os.path.basename(f)[:-2]
src = "From Verif Require " + " ".join(sorted({mods[n] for n in names})) + ".\n"
src += "".join("Print Assumptions %s.%s.\n" % (mods[n], n) for n in names)
with tempfile.TemporaryDirectory() as d:
    open(d + "/Ass.v", "w").write(src)
    out = subprocess.run(["coqc", "-Q", root + "/rocq/theories", "Verif", d + "/Ass.v"],
                         capture_output=True, text=True, check=True).stdout
blocks = re.split(r"^(?=Closed under|Axioms:)", out, flags=re.M)[1:]
assert len(blocks) == len(names)
groups = collections.OrderedDict()
for n, b in zip(names, blocks):
    ax = tuple(sorted(set(re.findall(r"^([A-Za-z_][\w.]*)\s*(?::|$)", b, re.M)) - {"Axioms", "Closed"}))
    groups.setdefault(ax, []).append(n)
text = ""
for ax, ts in groups.items():
    text += "\n" + ("No axioms (closed under the global context)" if not ax else
                    "Axioms " + ", ".join("`%s`" % a for a in ax)) + ": %d theorems.\n\n" % len(ts)
    text += " ".join(ts) + "\n"
p = root + "/DESIGN.md"
d = open(p).read()
a, b = "<!-- assumptions -->", "<!-- /assumptions -->"
d = d[:d.index(a) + len(a)] + "\n" + text + "\n" + d[d.index(b):]
open(p, "w").write(d)
