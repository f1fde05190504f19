#!/usr/bin/env python3
"""Rewrite the table between the ASSUMPTIONS markers of DESIGN.md from Print Assumptions (needs a built tree)."""
import json, os, re, subprocess, tempfile
root = os.path.dirname(os.path.dirname(os.path.abspath(__file__)))
claims = json.load(open(os.path.join(root, "MANIFEST.json")))["claims"]
where = {}
d = os.path.join(root, "rocq/theories/Props")
for f in sorted(os.listdir(d)):
    if f.endswith(".v"):
        for n in re.findall(r"^Theorem (\w+)", open(os.path.join(d, f)).read(), re.M):
            where[n] = f[:-2]
names = [n for c in claims for n in c["theorems"]]
src = "From Coq Require Import ZArith.\n" + "".join("From Verif.Props Require %s.\n" % m for m in sorted(set(where[n] for n in names)))
for i, n in enumerate(names):
    src += "Definition mark_%d := tt. Print mark_%d. Print Assumptions %s.%s.\n" % (i, i, where[n], n)
tmp = tempfile.mkdtemp()
p = os.path.join(tmp, "assum.v")
open(p, "w").write(src)
out = subprocess.run(["coqc", "-Q", os.path.join(root, "rocq/theories"), "Verif", p], capture_output=True, text=True, check=True).stdout
parts = re.split(r"mark_(\d+) = tt\s*: unit\s*", out)
short = {"ClassicalDedekindReals.sig_forall_dec": "D", "ClassicalDedekindReals.sig_not_dec": "N",
         "FunctionalExtensionality.functional_extensionality_dep": "E", "Classical_Prop.classic": "C"}
res = {}
for i in range(1, len(parts), 2):
    ax = re.findall(r"^([\w.]+)\s*:", parts[i + 1], re.M)
    res[names[int(parts[i])]] = "none" if "Closed under" in parts[i + 1] else " ".join(sorted(short.get(a, a) for a in ax if a != "Axioms"))
groups = {}
for n in names:
    groups.setdefault(res[n], []).append(n)
lines = ["| axioms | theorems |", "|---|---|"]
for k in sorted(groups, key=lambda k: (k != "none", k)):
    lines.append("| %s | %s |" % (k, ", ".join("`%s`" % n for n in groups[k])))
f = os.path.join(root, "DESIGN.md")
s = open(f).read()
a, b = "<!-- ASSUMPTIONS -->", "<!-- /ASSUMPTIONS -->"
i, j = s.index(a) + len(a), s.index(b)
open(f, "w").write(s[:i] + "\n" + "\n".join(lines) + "\n" + s[j:])
print({k: len(v) for k, v in groups.items()})
